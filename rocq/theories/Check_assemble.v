(** Check_assemble.v -- generated by tools/tests.py: the unit tests of /repo/tests/assemble/test_assemble.c run on the model.
    These are tests of the model against the expectations of the authors of the program, not
    proofs of properties: 14 assertions in 1 test functions; 4 assertions and statements without
    counterpart in the model are left out (pointers that are not NULL, the int returned by
    token_strcpy, enum values out of range).  Each computation returns the lines of the test file
    whose assertions fail. *)
From Verif Require Import Base Model_Opcode Model_Error Model_Lexer Model_SymbolTable Model_Parser
  Model_ForwardRef Model_Generator Check_Base.

(** test_assembly: 14 assertions *)
Definition test_assembly : M (list Z) :=
  let bad := @nil Z in
  let lexer := init_lexer (C "test_assembly.asm") in
  let tk := init_token in
  let instr := init_instruction in
  let symtab := init_symbol_table in
  '(res, lexer, tk, instr, _) <- lex_line (C "\t\tSBC\t($AA),Y\n") lexer tk instr (1) ;;
  let bad := chk 30 (res =? LEXER_SUCCESS) bad in
  '(res, lexer, _) <- parse_line lexer ;;
  let bad := chk 31 (res =? PARSER_SUCCESS) bad in
  let bad := chk 32 (mn_eqb (i_mnemonic instr) SBC) bad in
  let bad := chk 33 ((i_bitfield instr) =? SBC_BITFIELD) bad in
  res <- find_operand lexer ;;
  let operand := res in
  '(res, lexer, _) <- parse_operand lexer instr operand symtab ;;
  let operand_status := res in
  let bad := chk 37 (operand_status =? PARSER_SUCCESS) bad in
  '(res, instr, _) <- parse_addr_mode lexer instr operand operand_status ;;
  let addr_mask := res in
  let bad := chk 40 (addr_mask =? ADDR_MODE_INDIRECT_Y_INDEXED) bad in
  let instr := set_addr_bitflag instr (Z.land addr_mask (i_bitfield instr)) in
  let bad := chk 43 ((i_bitflag instr) =? ADDR_MODE_INDIRECT_Y_INDEXED) bad in
  let bad := chk 45 ((assemble_SBC (i_bitflag instr)) =? 241) bad in
  let bad := chk 49 ((assemble_JSR ADDR_MODE_INDIRECT) =? ERROR_ILLEGAL_ADDRESSING_MODE) bad in
  let bad := chk 50 ((assemble_TXA ADDR_MODE_ZERO_PAGE_X) =? ERROR_ILLEGAL_ADDRESSING_MODE) bad in
  let bad := chk 51 ((assemble_BEQ ADDR_MODE_IMMEDIATE) =? ERROR_ILLEGAL_ADDRESSING_MODE) bad in
  let bad := chk 52 ((assemble_EOR ADDR_MODE_ZERO_PAGE) =? 69) bad in
  let bad := chk 53 ((assemble_LDY ADDR_MODE_ZERO_PAGE) =? 164) bad in
  let bad := chk 54 ((assemble_STA ADDR_MODE_ABSOLUTE_X) =? 157) bad in
  Ret (rev bad).
Example test_assembly_passes : test_assembly = Ret [].
Proof. vm_compute. reflexivity. Qed.

