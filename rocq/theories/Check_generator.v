(** Check_generator.v -- generated by tools/tests.py: the unit tests of /repo/tests/generator/test_generator.c run on the model.
    These are tests of the model against the expectations of the authors of the program, not
    proofs of properties: 66 assertions in 5 test functions; 33 assertions and statements without
    counterpart in the model are left out (pointers that are not NULL, the int returned by
    token_strcpy, enum values out of range).  Each computation returns the lines of the test file
    whose assertions fail. *)
From Verif Require Import Base Model_Opcode Model_Error Model_Lexer Model_SymbolTable Model_Parser
  Model_ForwardRef Model_Generator Check_Base.

(** test_generate_code: 15 assertions *)
Definition test_generate_code : M (list Z) :=
  let bad := @nil Z in
  let lexer := init_lexer (C "test_generate_code.asm") in
  let tk := init_token in
  let instr := init_instruction in
  let symtab := init_symbol_table in
  let line_num := (1) in
  let f := mkOFile [] 0 in
  let exp_bytes := (24) in
  let pc := (0) in
  let written := (0) in
  '(res, lexer, tk, instr, _) <- lex_line (C "INX\n") lexer tk instr line_num ;;
  let line_num := line_num + 1 in
  '(res, lexer, _) <- parse_line lexer ;;
  res <- find_operand lexer ;;
  let operand := res in
  '(res, lexer, _) <- parse_operand lexer instr operand symtab ;;
  let operand_status := res in
  '(res, instr, _) <- parse_addr_mode lexer instr operand operand_status ;;
  ot <- token_of lexer operand ;;
  let '(res, f, instr) := generate_code f instr ot pc in
  let written := res in
  let bad := chk 89 (written =? (1)) bad in
  let pc := pc + written in
  '(res, lexer, tk, instr, _) <- lex_line (C "ROL A\n") lexer tk instr line_num ;;
  let line_num := line_num + 1 in
  '(res, lexer, _) <- parse_line lexer ;;
  res <- find_operand lexer ;;
  let operand := res in
  '(res, lexer, _) <- parse_operand lexer instr operand symtab ;;
  let operand_status := res in
  '(res, instr, _) <- parse_addr_mode lexer instr operand operand_status ;;
  ot <- token_of lexer operand ;;
  let '(res, f, instr) := generate_code f instr ot pc in
  let written := res in
  let bad := chk 99 (written =? (1)) bad in
  let pc := pc + written in
  '(res, lexer, tk, instr, _) <- lex_line (C "ORA $AA\n") lexer tk instr line_num ;;
  let line_num := line_num + 1 in
  '(res, lexer, _) <- parse_line lexer ;;
  res <- find_operand lexer ;;
  let operand := res in
  '(res, lexer, _) <- parse_operand lexer instr operand symtab ;;
  let operand_status := res in
  '(res, instr, _) <- parse_addr_mode lexer instr operand operand_status ;;
  ot <- token_of lexer operand ;;
  let '(res, f, instr) := generate_code f instr ot pc in
  let written := res in
  let bad := chk 109 (written =? (2)) bad in
  let pc := pc + written in
  '(res, lexer, tk, instr, _) <- lex_line (C "LDA $1234\n") lexer tk instr line_num ;;
  let line_num := line_num + 1 in
  '(res, lexer, _) <- parse_line lexer ;;
  res <- find_operand lexer ;;
  let operand := res in
  '(res, lexer, _) <- parse_operand lexer instr operand symtab ;;
  let operand_status := res in
  '(res, instr, _) <- parse_addr_mode lexer instr operand operand_status ;;
  ot <- token_of lexer operand ;;
  let '(res, f, instr) := generate_code f instr ot pc in
  let written := res in
  let bad := chk 119 (written =? (3)) bad in
  let pc := pc + written in
  '(res, lexer, tk, instr, _) <- lex_line (C "SBC $BB,X\n") lexer tk instr line_num ;;
  let line_num := line_num + 1 in
  '(res, lexer, _) <- parse_line lexer ;;
  res <- find_operand lexer ;;
  let operand := res in
  '(res, lexer, _) <- parse_operand lexer instr operand symtab ;;
  let operand_status := res in
  '(res, instr, _) <- parse_addr_mode lexer instr operand operand_status ;;
  ot <- token_of lexer operand ;;
  let '(res, f, instr) := generate_code f instr ot pc in
  let written := res in
  let bad := chk 129 (written =? (2)) bad in
  let pc := pc + written in
  '(res, lexer, tk, instr, _) <- lex_line (C "INC $1000,X\n") lexer tk instr line_num ;;
  let line_num := line_num + 1 in
  '(res, lexer, _) <- parse_line lexer ;;
  res <- find_operand lexer ;;
  let operand := res in
  '(res, lexer, _) <- parse_operand lexer instr operand symtab ;;
  let operand_status := res in
  '(res, instr, _) <- parse_addr_mode lexer instr operand operand_status ;;
  ot <- token_of lexer operand ;;
  let '(res, f, instr) := generate_code f instr ot pc in
  let written := res in
  let bad := chk 139 (written =? (3)) bad in
  let pc := pc + written in
  '(res, lexer, tk, instr, _) <- lex_line (C "STX $CC, Y\n") lexer tk instr line_num ;;
  let line_num := line_num + 1 in
  '(res, lexer, _) <- parse_line lexer ;;
  res <- find_operand lexer ;;
  let operand := res in
  '(res, lexer, _) <- parse_operand lexer instr operand symtab ;;
  let operand_status := res in
  '(res, instr, _) <- parse_addr_mode lexer instr operand operand_status ;;
  ot <- token_of lexer operand ;;
  let '(res, f, instr) := generate_code f instr ot pc in
  let written := res in
  let bad := chk 149 (written =? (2)) bad in
  let pc := pc + written in
  '(res, lexer, tk, instr, _) <- lex_line (C "STA $DEAD,Y\n") lexer tk instr line_num ;;
  let line_num := line_num + 1 in
  '(res, lexer, _) <- parse_line lexer ;;
  res <- find_operand lexer ;;
  let operand := res in
  '(res, lexer, _) <- parse_operand lexer instr operand symtab ;;
  let operand_status := res in
  '(res, instr, _) <- parse_addr_mode lexer instr operand operand_status ;;
  ot <- token_of lexer operand ;;
  let '(res, f, instr) := generate_code f instr ot pc in
  let written := res in
  let bad := chk 159 (written =? (3)) bad in
  let pc := pc + written in
  '(res, lexer, tk, instr, _) <- lex_line (C "JMP ($FACE)\n") lexer tk instr line_num ;;
  let line_num := line_num + 1 in
  '(res, lexer, _) <- parse_line lexer ;;
  res <- find_operand lexer ;;
  let operand := res in
  '(res, lexer, _) <- parse_operand lexer instr operand symtab ;;
  let operand_status := res in
  '(res, instr, _) <- parse_addr_mode lexer instr operand operand_status ;;
  ot <- token_of lexer operand ;;
  let '(res, f, instr) := generate_code f instr ot pc in
  let written := res in
  let bad := chk 169 (written =? (3)) bad in
  let pc := pc + written in
  '(res, lexer, tk, instr, _) <- lex_line (C "EOR #$DD\n") lexer tk instr line_num ;;
  let line_num := line_num + 1 in
  '(res, lexer, _) <- parse_line lexer ;;
  res <- find_operand lexer ;;
  let operand := res in
  '(res, lexer, _) <- parse_operand lexer instr operand symtab ;;
  let operand_status := res in
  '(res, instr, _) <- parse_addr_mode lexer instr operand operand_status ;;
  ot <- token_of lexer operand ;;
  let '(res, f, instr) := generate_code f instr ot pc in
  let written := res in
  let bad := chk 179 (written =? (2)) bad in
  let pc := pc + written in
  '(res, lexer, tk, instr, _) <- lex_line (C "ADC ($EE,X)\n") lexer tk instr line_num ;;
  let line_num := line_num + 1 in
  '(res, lexer, _) <- parse_line lexer ;;
  res <- find_operand lexer ;;
  let operand := res in
  '(res, lexer, _) <- parse_operand lexer instr operand symtab ;;
  let operand_status := res in
  '(res, instr, _) <- parse_addr_mode lexer instr operand operand_status ;;
  ot <- token_of lexer operand ;;
  let '(res, f, instr) := generate_code f instr ot pc in
  let written := res in
  let bad := chk 189 (written =? (2)) bad in
  let pc := pc + written in
  '(res, lexer, tk, instr, _) <- lex_line (C "CMP ($FF),Y\n") lexer tk instr line_num ;;
  let line_num := line_num + 1 in
  '(res, lexer, _) <- parse_line lexer ;;
  res <- find_operand lexer ;;
  let operand := res in
  '(res, lexer, _) <- parse_operand lexer instr operand symtab ;;
  let operand_status := res in
  '(res, instr, _) <- parse_addr_mode lexer instr operand operand_status ;;
  ot <- token_of lexer operand ;;
  let '(res, f, instr) := generate_code f instr ot pc in
  let written := res in
  let bad := chk 199 (written =? (2)) bad in
  let pc := pc + written in
  '(res, lexer, tk, instr, _) <- lex_line (C "ASL\n") lexer tk instr line_num ;;
  let line_num := line_num + 1 in
  '(res, lexer, _) <- parse_line lexer ;;
  res <- find_operand lexer ;;
  let operand := res in
  '(res, lexer, _) <- parse_operand lexer instr operand symtab ;;
  let operand_status := res in
  '(res, instr, _) <- parse_addr_mode lexer instr operand operand_status ;;
  ot <- token_of lexer operand ;;
  let '(res, f, instr) := generate_code f instr ot pc in
  let written := res in
  let bad := chk 209 (written =? (1)) bad in
  let pc := pc + written in
  let f := mkOFile (of_data f) (0) in
  let bad := chk 213 ((Z.min exp_bytes (Z.of_nat (List.length (from_here f)))) =? exp_bytes) bad in
  let bad := chk 214 (list_z_eqb (firstn (Z.to_nat exp_bytes) (from_here f)) (firstn (Z.to_nat exp_bytes) [232; 42; 5; 170; 173; 52; 18; 245; 187; 254; 0; 16; 150; 204; 153; 173; 222; 108; 206; 250; 73; 221; 97; 238; 209; 255; 10])) bad in
  Ret (rev bad).
Example test_generate_code_passes : test_generate_code = Ret [].
Proof. vm_compute. reflexivity. Qed.

(** test_resolve_label_ref: 15 assertions *)
Definition test_resolve_label_ref : M (list Z) :=
  let bad := @nil Z in
  let lexer := init_lexer (C "test_resolve_label_ref.asm") in
  let tk := init_token in
  let instr := init_instruction in
  let symtab := init_symbol_table in
  let line_num := (1) in
  let f := mkOFile [] 0 in
  let exp_bytes := (19) in
  let pc := 4096 in
  let written := (0) in
  '(res, lexer, tk, instr, _) <- lex_line (C "ADDRESS .EQU $1234\n") lexer tk instr line_num ;;
  let line_num := line_num + 1 in
  '(res, lexer, _) <- parse_line lexer ;;
  '(res, lexer, symtab, _) <- parse_label_declaration true true lexer symtab pc ;;
  let bad := chk 274 (mn_eqb (i_mnemonic instr) NULL_MNEMONIC) bad in
  res <- search_symbol symtab (C "ADDRESS") ;;
  let bad := chk 275 (res =? 4660) bad in
  let line_num := line_num + 1 in
  '(res, lexer, tk, instr, _) <- lex_line (C "LABEL1: INX\n") lexer tk instr line_num ;;
  let line_num := line_num + 1 in
  '(res, lexer, _) <- parse_line lexer ;;
  '(res, lexer, symtab, _) <- parse_label_declaration true true lexer symtab pc ;;
  res <- find_operand lexer ;;
  let operand := res in
  '(res, lexer, _) <- parse_operand lexer instr operand symtab ;;
  let operand_status := res in
  '(res, instr, _) <- parse_addr_mode lexer instr operand operand_status ;;
  ot <- token_of lexer operand ;;
  let '(res, f, instr) := generate_code f instr ot pc in
  let written := res in
  let bad := chk 286 (written =? (1)) bad in
  let pc := pc + written in
  '(res, lexer, tk, instr, _) <- lex_line (C "BNE LABEL1\n") lexer tk instr line_num ;;
  let line_num := line_num + 1 in
  '(res, lexer, _) <- parse_line lexer ;;
  res <- find_operand lexer ;;
  let operand := res in
  '(res, lexer, _) <- parse_operand lexer instr operand symtab ;;
  let operand_status := res in
  '(res, instr, _) <- parse_addr_mode lexer instr operand operand_status ;;
  i <- some operand ;;
  t <- get (lx_seq lexer) i ;;
  let bad := chk 295 ((tk_value t) =? 4096) bad in
  '(res, f, lexer, instr, _) <- resolve_label_ref f lexer instr operand operand_status symtab pc ;;
  let written := res in
  i <- some operand ;;
  t <- get (lx_seq lexer) i ;;
  let bad := chk 297 ((tk_value t) =? 253) bad in
  let bad := chk 298 (written =? (2)) bad in
  let pc := pc + written in
  '(res, lexer, tk, instr, _) <- lex_line (C "JMP LABEL1\n") lexer tk instr line_num ;;
  let line_num := line_num + 1 in
  '(res, lexer, _) <- parse_line lexer ;;
  res <- find_operand lexer ;;
  let operand := res in
  '(res, lexer, _) <- parse_operand lexer instr operand symtab ;;
  let operand_status := res in
  '(res, instr, _) <- parse_addr_mode lexer instr operand operand_status ;;
  '(res, f, lexer, instr, _) <- resolve_label_ref f lexer instr operand operand_status symtab pc ;;
  let written := res in
  let bad := chk 308 (written =? (3)) bad in
  let pc := pc + written in
  '(res, lexer, tk, instr, _) <- lex_line (C "SAME1: BEQ SAME1\n") lexer tk instr line_num ;;
  let line_num := line_num + 1 in
  '(res, lexer, _) <- parse_line lexer ;;
  '(res, lexer, symtab, _) <- parse_label_declaration true true lexer symtab pc ;;
  res <- find_operand lexer ;;
  let operand := res in
  '(res, lexer, _) <- parse_operand lexer instr operand symtab ;;
  let operand_status := res in
  '(res, instr, _) <- parse_addr_mode lexer instr operand operand_status ;;
  '(res, f, lexer, instr, _) <- resolve_label_ref f lexer instr operand operand_status symtab pc ;;
  let written := res in
  let bad := chk 319 (written =? (2)) bad in
  let pc := pc + written in
  '(res, lexer, tk, instr, _) <- lex_line (C "SAME2: JMP SAME2\n") lexer tk instr line_num ;;
  let line_num := line_num + 1 in
  '(res, lexer, _) <- parse_line lexer ;;
  '(res, lexer, symtab, _) <- parse_label_declaration true true lexer symtab pc ;;
  res <- find_operand lexer ;;
  let operand := res in
  '(res, lexer, _) <- parse_operand lexer instr operand symtab ;;
  let operand_status := res in
  '(res, instr, _) <- parse_addr_mode lexer instr operand operand_status ;;
  '(res, f, lexer, instr, _) <- resolve_label_ref f lexer instr operand operand_status symtab pc ;;
  let written := res in
  let bad := chk 330 (written =? (3)) bad in
  let pc := pc + written in
  '(res, lexer, tk, instr, _) <- lex_line (C "LABEL2: BPL SAME1\n") lexer tk instr line_num ;;
  let line_num := line_num + 1 in
  '(res, lexer, _) <- parse_line lexer ;;
  '(res, lexer, symtab, _) <- parse_label_declaration true true lexer symtab pc ;;
  res <- find_operand lexer ;;
  let operand := res in
  '(res, lexer, _) <- parse_operand lexer instr operand symtab ;;
  let operand_status := res in
  '(res, instr, _) <- parse_addr_mode lexer instr operand operand_status ;;
  '(res, f, lexer, instr, _) <- resolve_label_ref f lexer instr operand operand_status symtab pc ;;
  let written := res in
  let bad := chk 341 (written =? (2)) bad in
  let pc := pc + written in
  '(res, lexer, tk, instr, _) <- lex_line (C "JSR LABEL2\n") lexer tk instr line_num ;;
  let line_num := line_num + 1 in
  '(res, lexer, _) <- parse_line lexer ;;
  res <- find_operand lexer ;;
  let operand := res in
  '(res, lexer, _) <- parse_operand lexer instr operand symtab ;;
  let operand_status := res in
  '(res, instr, _) <- parse_addr_mode lexer instr operand operand_status ;;
  '(res, f, lexer, instr, _) <- resolve_label_ref f lexer instr operand operand_status symtab pc ;;
  let written := res in
  let bad := chk 351 (written =? (3)) bad in
  let pc := pc + written in
  '(res, lexer, tk, instr, _) <- lex_line (C "JMP (ADDRESS)\n") lexer tk instr line_num ;;
  let line_num := line_num + 1 in
  '(res, lexer, _) <- parse_line lexer ;;
  res <- find_operand lexer ;;
  let operand := res in
  '(res, lexer, _) <- parse_operand lexer instr operand symtab ;;
  let operand_status := res in
  '(res, instr, _) <- parse_addr_mode lexer instr operand operand_status ;;
  '(res, f, lexer, instr, _) <- resolve_label_ref f lexer instr operand operand_status symtab pc ;;
  let written := res in
  let bad := chk 361 (written =? (3)) bad in
  let pc := pc + written in
  let f := mkOFile (of_data f) 4096 in
  let bad := chk 365 ((Z.min exp_bytes (Z.of_nat (List.length (from_here f)))) =? exp_bytes) bad in
  let bad := chk 366 (list_z_eqb (firstn (Z.to_nat exp_bytes) (from_here f)) (firstn (Z.to_nat exp_bytes) [232; 208; 253; 76; 0; 16; 240; 254; 76; 8; 16; 16; 249; 32; 11; 16; 108; 52; 18])) bad in
  '(res, symtab) <- insert_symbol true true symtab (C "FARAWAY") 61440 ;;
  '(res, lexer, tk, instr, _) <- lex_line (C "\t\tBMI\tFARAWAY\n") lexer tk instr line_num ;;
  let line_num := line_num + 1 in
  '(res, lexer, _) <- parse_line lexer ;;
  res <- find_operand lexer ;;
  let operand := res in
  '(res, lexer, _) <- parse_operand lexer instr operand symtab ;;
  let operand_status := res in
  '(res, instr, _) <- parse_addr_mode lexer instr operand operand_status ;;
  '(res, f, lexer, instr, _) <- resolve_label_ref f lexer instr operand operand_status symtab pc ;;
  let written := res in
  let bad := chk 376 (written =? ERROR_TOO_BIG_OFFSET) bad in
  Ret (rev bad).
Example test_resolve_label_ref_passes : test_resolve_label_ref = Ret [].
Proof. vm_compute. reflexivity. Qed.

(** test_too_big_offset_no_forward_ref: 4 assertions *)
Definition test_too_big_offset_no_forward_ref : M (list Z) :=
  let bad := @nil Z in
  let lexer := init_lexer (C "test_too_big_offset_no_forward_ref.asm") in
  let tk := init_token in
  let instr := init_instruction in
  let symtab := init_symbol_table in
  let f := mkOFile [] 0 in
  let line_num := (1) in
  let pc := 0 in
  '(res, lexer, tk, instr, _) <- lex_line (C "BACK INX\n") lexer tk instr line_num ;;
  let line_num := line_num + 1 in
  '(res, lexer, _) <- parse_line lexer ;;
  '(res, lexer, symtab, _) <- parse_label_declaration true true lexer symtab pc ;;
  res <- find_operand lexer ;;
  let operand := res in
  '(res, lexer, _) <- parse_operand lexer instr operand symtab ;;
  let operand_status := res in
  '(res, instr, _) <- parse_addr_mode lexer instr operand operand_status ;;
  ot <- token_of lexer operand ;;
  let '(res, f, instr) := generate_code f instr ot pc in
  let written := res in
  let bad := chk 423 (written =? (1)) bad in
  let pc := 126 in
  '(res, lexer, tk, instr, _) <- lex_line (C "BCC BACK\n") lexer tk instr line_num ;;
  let line_num := line_num + 1 in
  '(res, lexer, _) <- parse_line lexer ;;
  res <- find_operand lexer ;;
  let operand := res in
  '(res, lexer, _) <- parse_operand lexer instr operand symtab ;;
  let operand_status := res in
  '(res, instr, _) <- parse_addr_mode lexer instr operand operand_status ;;
  '(res, f, lexer, instr, _) <- resolve_label_ref f lexer instr operand operand_status symtab pc ;;
  let written := res in
  let bad := chk 433 (written =? (2)) bad in
  let line_num := (2) in
  let pc := 127 in
  '(res, lexer, tk, instr, _) <- lex_line (C "BCC\tBACK\n") lexer tk instr line_num ;;
  let line_num := line_num + 1 in
  '(res, lexer, _) <- parse_line lexer ;;
  res <- find_operand lexer ;;
  let operand := res in
  '(res, lexer, _) <- parse_operand lexer instr operand symtab ;;
  let operand_status := res in
  '(res, instr, _) <- parse_addr_mode lexer instr operand operand_status ;;
  '(res, f, lexer, instr, _) <- resolve_label_ref f lexer instr operand operand_status symtab pc ;;
  let written := res in
  let bad := chk 452 (written =? ERROR_TOO_BIG_OFFSET) bad in
  let line_num := (2) in
  let pc := 2748 in
  '(res, lexer, tk, instr, _) <- lex_line (C "                BCC     BACK\n") lexer tk instr line_num ;;
  let line_num := line_num + 1 in
  '(res, lexer, _) <- parse_line lexer ;;
  res <- find_operand lexer ;;
  let operand := res in
  '(res, lexer, _) <- parse_operand lexer instr operand symtab ;;
  let operand_status := res in
  '(res, instr, _) <- parse_addr_mode lexer instr operand operand_status ;;
  '(res, f, lexer, instr, _) <- resolve_label_ref f lexer instr operand operand_status symtab pc ;;
  let written := res in
  let bad := chk 471 (written =? ERROR_TOO_BIG_OFFSET) bad in
  Ret (rev bad).
Example test_too_big_offset_no_forward_ref_passes : test_too_big_offset_no_forward_ref = Ret [].
Proof. vm_compute. reflexivity. Qed.

(** test_resolve_forward_ref: 16 assertions *)
Definition test_resolve_forward_ref : M (list Z) :=
  let bad := @nil Z in
  let lexer := init_lexer (C "test_resolve_forward_ref.asm") in
  let tk := init_token in
  let instr := init_instruction in
  let symtab := init_symbol_table in
  let unresolved := init_unresolved in
  let line_num := (1) in
  let f := mkOFile [] 0 in
  let exp_bytes := (14) in
  let pc := 0 in
  '(res, lexer, tk, instr, _) <- lex_line (C "BVS L1\n") lexer tk instr line_num ;;
  let line_num := line_num + 1 in
  '(res, lexer, _) <- parse_line lexer ;;
  res <- find_operand lexer ;;
  let operand := res in
  '(res, lexer, _) <- parse_operand lexer instr operand symtab ;;
  let operand_status := res in
  '(res, instr, _) <- parse_addr_mode lexer instr operand operand_status ;;
  let bad := chk 534 (res =? FORWARD_REFERENCE) bad in
  let f := fputc 0 f in
  let f := fputc 0 f in
  i <- some operand ;;
  t <- get (lx_seq lexer) i ;;
  o <- create_forward_ref true (C "BVS L1\n") instr t operand_status pc line_num ;;
  res <- some o ;;
  let ref := res in
  '(res, unresolved) <- add_forward_ref true unresolved ref ;;
  let bad := chk 540 (res =? FORWARD_REFERENCE_INSERTION_SUCCESS) bad in
  let pc := pc + (2) in
  '(res, lexer, tk, instr, _) <- lex_line (C "JMP L2\n") lexer tk instr line_num ;;
  let line_num := line_num + 1 in
  '(res, lexer, _) <- parse_line lexer ;;
  res <- find_operand lexer ;;
  let operand := res in
  '(res, lexer, _) <- parse_operand lexer instr operand symtab ;;
  let operand_status := res in
  '(res, instr, _) <- parse_addr_mode lexer instr operand operand_status ;;
  let bad := chk 548 (res =? FORWARD_REFERENCE) bad in
  let f := fputc 0 f in
  let f := fputc 0 f in
  let f := fputc 0 f in
  i <- some operand ;;
  t <- get (lx_seq lexer) i ;;
  o <- create_forward_ref true (C "JMP L2\n") instr t operand_status pc line_num ;;
  res <- some o ;;
  let ref := res in
  '(res, unresolved) <- add_forward_ref true unresolved ref ;;
  let bad := chk 554 (res =? FORWARD_REFERENCE_INSERTION_SUCCESS) bad in
  let pc := pc + (3) in
  '(res, lexer, tk, instr, _) <- lex_line (C "JSR L3\n") lexer tk instr line_num ;;
  let line_num := line_num + 1 in
  '(res, lexer, _) <- parse_line lexer ;;
  res <- find_operand lexer ;;
  let operand := res in
  '(res, lexer, _) <- parse_operand lexer instr operand symtab ;;
  let operand_status := res in
  '(res, instr, _) <- parse_addr_mode lexer instr operand operand_status ;;
  let bad := chk 562 (res =? FORWARD_REFERENCE) bad in
  let f := fputc 0 f in
  let f := fputc 0 f in
  let f := fputc 0 f in
  i <- some operand ;;
  t <- get (lx_seq lexer) i ;;
  o <- create_forward_ref true (C "JSR L3\n") instr t operand_status pc line_num ;;
  res <- some o ;;
  let ref := res in
  '(res, unresolved) <- add_forward_ref true unresolved ref ;;
  let bad := chk 568 (res =? FORWARD_REFERENCE_INSERTION_SUCCESS) bad in
  let pc := pc + (3) in
  '(res, lexer, tk, instr, _) <- lex_line (C "JMP (WHERE)\n") lexer tk instr line_num ;;
  let line_num := line_num + 1 in
  '(res, lexer, _) <- parse_line lexer ;;
  res <- find_operand lexer ;;
  let operand := res in
  '(res, lexer, _) <- parse_operand lexer instr operand symtab ;;
  let operand_status := res in
  '(res, instr, _) <- parse_addr_mode lexer instr operand operand_status ;;
  let bad := chk 576 (res =? FORWARD_REFERENCE) bad in
  let f := fputc 0 f in
  let f := fputc 0 f in
  let f := fputc 0 f in
  i <- some operand ;;
  t <- get (lx_seq lexer) i ;;
  o <- create_forward_ref true (C "JMP (WHERE)\n") instr t operand_status pc line_num ;;
  res <- some o ;;
  let ref := res in
  '(res, unresolved) <- add_forward_ref true unresolved ref ;;
  let bad := chk 582 (res =? FORWARD_REFERENCE_INSERTION_SUCCESS) bad in
  let bad := chk 583 ((un_curr unresolved) =? (4)) bad in
  let pc := pc + (3) in
  '(res, lexer, tk, instr, _) <- lex_line (C "L1 INX\n") lexer tk instr line_num ;;
  let line_num := line_num + 1 in
  '(res, lexer, _) <- parse_line lexer ;;
  '(res, lexer, symtab, _) <- parse_label_declaration true true lexer symtab pc ;;
  res <- find_operand lexer ;;
  let operand := res in
  '(res, lexer, _) <- parse_operand lexer instr operand symtab ;;
  let operand_status := res in
  '(res, instr, _) <- parse_addr_mode lexer instr operand operand_status ;;
  ot <- token_of lexer operand ;;
  let '(res, f, instr) := generate_code f instr ot pc in
  let written := res in
  let bad := chk 594 (written =? (1)) bad in
  let pc := pc + written in
  '(res, lexer, tk, instr, _) <- lex_line (C "L2 INY\n") lexer tk instr line_num ;;
  let line_num := line_num + 1 in
  '(res, lexer, _) <- parse_line lexer ;;
  '(res, lexer, symtab, _) <- parse_label_declaration true true lexer symtab pc ;;
  res <- find_operand lexer ;;
  let operand := res in
  '(res, lexer, _) <- parse_operand lexer instr operand symtab ;;
  let operand_status := res in
  '(res, instr, _) <- parse_addr_mode lexer instr operand operand_status ;;
  ot <- token_of lexer operand ;;
  let '(res, f, instr) := generate_code f instr ot pc in
  let written := res in
  let bad := chk 605 (written =? (1)) bad in
  let pc := pc + written in
  '(res, lexer, tk, instr, _) <- lex_line (C "L3 DEX\n") lexer tk instr line_num ;;
  let line_num := line_num + 1 in
  '(res, lexer, _) <- parse_line lexer ;;
  '(res, lexer, symtab, _) <- parse_label_declaration true true lexer symtab pc ;;
  res <- find_operand lexer ;;
  let operand := res in
  '(res, lexer, _) <- parse_operand lexer instr operand symtab ;;
  let operand_status := res in
  '(res, instr, _) <- parse_addr_mode lexer instr operand operand_status ;;
  ot <- token_of lexer operand ;;
  let '(res, f, instr) := generate_code f instr ot pc in
  let written := res in
  let bad := chk 616 (written =? (1)) bad in
  let pc := pc + written in
  '(res, lexer, tk, instr, _) <- lex_line (C "WHERE = $ABCD\n") lexer tk instr line_num ;;
  let line_num := line_num + 1 in
  '(res, lexer, _) <- parse_line lexer ;;
  '(res, lexer, symtab, _) <- parse_label_declaration true true lexer symtab pc ;;
  let bad := chk 623 (mn_eqb (i_mnemonic instr) NULL_MNEMONIC) bad in
  o <- get (un_refs unresolved) (0) ;;
  r <- some o ;;
  let ref := r in
  let bad := chk 627 (un_curr unresolved =? 4) bad in
  o <- get (un_refs unresolved) (0) ;;
  r <- some o ;;
  let ref := r in
  res <- search_symbol symtab (fr_label ref) ;;
  let dest_pc := res in
  '(res, f, _) <- resolve_forward_ref f ref lexer dest_pc ;;
  o <- get (un_refs unresolved) (1) ;;
  r <- some o ;;
  let ref := r in
  res <- search_symbol symtab (fr_label ref) ;;
  let dest_pc := res in
  '(res, f, _) <- resolve_forward_ref f ref lexer dest_pc ;;
  o <- get (un_refs unresolved) (2) ;;
  r <- some o ;;
  let ref := r in
  res <- search_symbol symtab (fr_label ref) ;;
  let dest_pc := res in
  '(res, f, _) <- resolve_forward_ref f ref lexer dest_pc ;;
  o <- get (un_refs unresolved) (3) ;;
  r <- some o ;;
  let ref := r in
  res <- search_symbol symtab (fr_label ref) ;;
  let dest_pc := res in
  '(res, f, _) <- resolve_forward_ref f ref lexer dest_pc ;;
  let f := mkOFile (of_data f) (0) in
  let bad := chk 634 ((Z.min exp_bytes (Z.of_nat (List.length (from_here f)))) =? exp_bytes) bad in
  let bad := chk 635 (list_z_eqb (firstn (Z.to_nat exp_bytes) (from_here f)) (firstn (Z.to_nat exp_bytes) [112; 9; 76; 12; 0; 32; 13; 0; 108; 205; 171; 232; 200; 202])) bad in
  Ret (rev bad).
Example test_resolve_forward_ref_passes : test_resolve_forward_ref = Ret [].
Proof. vm_compute. reflexivity. Qed.

(** test_too_big_offset_with_forward_ref: 16 assertions *)
Definition test_too_big_offset_with_forward_ref : M (list Z) :=
  let bad := @nil Z in
  let lexer := init_lexer (C "test_too_big_offset_with_forward_ref.asm") in
  let tk := init_token in
  let instr := init_instruction in
  let symtab := init_symbol_table in
  let unresolved := init_unresolved in
  let f := mkOFile [] 0 in
  let line_num := (1) in
  let pc := 0 in
  '(res, lexer, tk, instr, _) <- lex_line (C "BVC FARAWAY1\n") lexer tk instr line_num ;;
  let line_num := line_num + 1 in
  '(res, lexer, _) <- parse_line lexer ;;
  res <- find_operand lexer ;;
  let operand := res in
  '(res, lexer, _) <- parse_operand lexer instr operand symtab ;;
  let operand_status := res in
  '(res, instr, _) <- parse_addr_mode lexer instr operand operand_status ;;
  let bad := chk 683 (res =? FORWARD_REFERENCE) bad in
  i <- some operand ;;
  t <- get (lx_seq lexer) i ;;
  o <- create_forward_ref true (C "BVC FARAWAY1\n") instr t operand_status pc line_num ;;
  res <- some o ;;
  let ref := res in
  '(res, unresolved) <- add_forward_ref true unresolved ref ;;
  let bad := chk 687 (res =? FORWARD_REFERENCE_INSERTION_SUCCESS) bad in
  let f := fputc 0 f in
  let f := fputc 0 f in
  let pc := 129 in
  '(res, lexer, tk, instr, _) <- lex_line (C "FARAWAY1 INY\n") lexer tk instr line_num ;;
  let line_num := line_num + 1 in
  '(res, lexer, _) <- parse_line lexer ;;
  '(res, lexer, symtab, _) <- parse_label_declaration true true lexer symtab pc ;;
  res <- find_operand lexer ;;
  let operand := res in
  '(res, lexer, _) <- parse_operand lexer instr operand symtab ;;
  let operand_status := res in
  '(res, instr, _) <- parse_addr_mode lexer instr operand operand_status ;;
  ot <- token_of lexer operand ;;
  let '(res, f, instr) := generate_code f instr ot pc in
  let written := res in
  let bad := chk 700 (written =? (1)) bad in
  let curr_forward_ref := (0) in
  o <- get (un_refs unresolved) curr_forward_ref ;;
  r <- some o ;;
  res <- search_symbol symtab (fr_label r) ;;
  let dest_pc := res in
  o <- get (un_refs unresolved) curr_forward_ref ;;
  r <- some o ;;
  '(res, f, _) <- resolve_forward_ref f r lexer dest_pc ;;
  let bad := chk 704 (res =? (2)) bad in
  let curr_forward_ref := curr_forward_ref + 1 in
  let line_num := (1) in
  '(res, lexer, tk, instr, _) <- lex_line (C "*=$0000") lexer tk instr line_num ;;
  let line_num := line_num + 1 in
  '(res, lexer, _) <- parse_line lexer ;;
  t <- get (lx_seq lexer) (0) ;;
  let bad := chk 720 (ty_eqb (tk_type t) TOKEN_BASE) bad in
  t <- get (lx_seq lexer) (0) ;;
  let pc := (tk_value t) in
  let bad := chk 723 (pc =? 0) bad in
  '(res, lexer, tk, instr, _) <- lex_line (C "\t\tBCS\tFARAWAY2\n") lexer tk instr line_num ;;
  let line_num := line_num + 1 in
  '(res, lexer, _) <- parse_line lexer ;;
  res <- find_operand lexer ;;
  let operand := res in
  '(res, lexer, _) <- parse_operand lexer instr operand symtab ;;
  let operand_status := res in
  '(res, instr, _) <- parse_addr_mode lexer instr operand operand_status ;;
  let bad := chk 730 (res =? FORWARD_REFERENCE) bad in
  i <- some operand ;;
  t <- get (lx_seq lexer) i ;;
  o <- create_forward_ref true (C "\t\tBCS\tFARAWAY2\n") instr t operand_status pc line_num ;;
  res <- some o ;;
  let ref := res in
  '(res, unresolved) <- add_forward_ref true unresolved ref ;;
  let bad := chk 734 (res =? FORWARD_REFERENCE_INSERTION_SUCCESS) bad in
  let f := fputc 0 f in
  let f := fputc 0 f in
  '(res, lexer, tk, instr, _) <- lex_line (C "*=$0082") lexer tk instr line_num ;;
  let line_num := line_num + 1 in
  '(res, lexer, _) <- parse_line lexer ;;
  t <- get (lx_seq lexer) (0) ;;
  let bad := chk 741 (ty_eqb (tk_type t) TOKEN_BASE) bad in
  t <- get (lx_seq lexer) (0) ;;
  let pc := (tk_value t) in
  let bad := chk 744 (pc =? 130) bad in
  let pc := 130 in
  '(res, lexer, tk, instr, _) <- lex_line (C "FARAWAY2 INY\n") lexer tk instr line_num ;;
  let line_num := line_num + 1 in
  '(res, lexer, _) <- parse_line lexer ;;
  '(res, lexer, symtab, _) <- parse_label_declaration true true lexer symtab pc ;;
  res <- find_operand lexer ;;
  let operand := res in
  '(res, lexer, _) <- parse_operand lexer instr operand symtab ;;
  let operand_status := res in
  '(res, instr, _) <- parse_addr_mode lexer instr operand operand_status ;;
  ot <- token_of lexer operand ;;
  let '(res, f, instr) := generate_code f instr ot pc in
  let written := res in
  let bad := chk 755 (written =? (1)) bad in
  o <- get (un_refs unresolved) curr_forward_ref ;;
  r <- some o ;;
  res <- search_symbol symtab (fr_label r) ;;
  let dest_pc := res in
  o <- get (un_refs unresolved) curr_forward_ref ;;
  r <- some o ;;
  '(res, f, _) <- resolve_forward_ref f r lexer dest_pc ;;
  let bad := chk 758 (res =? ERROR_TOO_BIG_OFFSET) bad in
  let curr_forward_ref := curr_forward_ref + 1 in
  let line_num := (1) in
  let pc := 0 in
  '(res, lexer, tk, instr, _) <- lex_line (C "BVS FARAWAY3\n") lexer tk instr line_num ;;
  let line_num := line_num + 1 in
  '(res, lexer, _) <- parse_line lexer ;;
  res <- find_operand lexer ;;
  let operand := res in
  '(res, lexer, _) <- parse_operand lexer instr operand symtab ;;
  let operand_status := res in
  '(res, instr, _) <- parse_addr_mode lexer instr operand operand_status ;;
  let bad := chk 777 (res =? FORWARD_REFERENCE) bad in
  i <- some operand ;;
  t <- get (lx_seq lexer) i ;;
  o <- create_forward_ref true (C "BVS FARAWAY3\n") instr t operand_status pc line_num ;;
  res <- some o ;;
  let ref := res in
  '(res, unresolved) <- add_forward_ref true unresolved ref ;;
  let bad := chk 781 (res =? FORWARD_REFERENCE_INSERTION_SUCCESS) bad in
  let f := fputc 0 f in
  let f := fputc 0 f in
  let pc := 4096 in
  '(res, lexer, tk, instr, _) <- lex_line (C "FARAWAY3 DEX\n") lexer tk instr line_num ;;
  let line_num := line_num + 1 in
  '(res, lexer, _) <- parse_line lexer ;;
  '(res, lexer, symtab, _) <- parse_label_declaration true true lexer symtab pc ;;
  res <- find_operand lexer ;;
  let operand := res in
  '(res, lexer, _) <- parse_operand lexer instr operand symtab ;;
  let operand_status := res in
  '(res, instr, _) <- parse_addr_mode lexer instr operand operand_status ;;
  ot <- token_of lexer operand ;;
  let '(res, f, instr) := generate_code f instr ot pc in
  let written := res in
  let bad := chk 794 (written =? (1)) bad in
  o <- get (un_refs unresolved) curr_forward_ref ;;
  r <- some o ;;
  res <- search_symbol symtab (fr_label r) ;;
  let dest_pc := res in
  o <- get (un_refs unresolved) curr_forward_ref ;;
  r <- some o ;;
  '(res, f, _) <- resolve_forward_ref f r lexer dest_pc ;;
  let bad := chk 797 (res =? ERROR_TOO_BIG_OFFSET) bad in
  let curr_forward_ref := curr_forward_ref + 1 in
  Ret (rev bad).
Example test_too_big_offset_with_forward_ref_passes : test_too_big_offset_with_forward_ref = Ret [].
Proof. vm_compute. reflexivity. Qed.

