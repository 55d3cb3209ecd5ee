(** Check_opcode.v -- generated by tools/tests.py: the unit tests of /repo/tests/opcode/test_opcode.c run on the model.
    These are tests of the model against the expectations of the authors of the program, not
    proofs of properties: 180 assertions in 4 test functions; 10 assertions and statements without
    counterpart in the model are left out (pointers that are not NULL, the int returned by
    token_strcpy, enum values out of range).  Each computation returns the lines of the test file
    whose assertions fail. *)
From Verif Require Import Base Model_Opcode Model_Error Model_Lexer Model_SymbolTable Model_Parser
  Model_ForwardRef Model_Generator Check_Base.

(** test_init_destroy_instr: 4 assertions *)
Definition test_init_destroy_instr : M (list Z) :=
  let bad := @nil Z in
  let instr := init_instruction in
  let bad := chk 17 (mn_eqb (i_mnemonic instr) NULL_MNEMONIC) bad in
  let bad := chk 18 ((i_bitfield instr) =? (0)) bad in
  let bad := chk 19 ((i_bitflag instr) =? (0)) bad in
  let bad := chk 20 ((i_opcode instr) =? (0)) bad in
  Ret (rev bad).
Example test_init_destroy_instr_passes : test_init_destroy_instr = Ret [].
Proof. vm_compute. reflexivity. Qed.

(** test_str_to_mnemonic: 63 assertions *)
Definition test_str_to_mnemonic : M (list Z) :=
  let bad := @nil Z in
  let bad := chk 28 (mn_eqb (str_to_mnemonic (C "ADC")) ADC) bad in
  let bad := chk 29 (mn_eqb (str_to_mnemonic (C "AND")) AND) bad in
  let bad := chk 30 (mn_eqb (str_to_mnemonic (C "ASL")) ASL) bad in
  let bad := chk 31 (mn_eqb (str_to_mnemonic (C "BCC")) BCC) bad in
  let bad := chk 32 (mn_eqb (str_to_mnemonic (C "BCS")) BCS) bad in
  let bad := chk 33 (mn_eqb (str_to_mnemonic (C "BEQ")) BEQ) bad in
  let bad := chk 34 (mn_eqb (str_to_mnemonic (C "BIT")) BIT) bad in
  let bad := chk 35 (mn_eqb (str_to_mnemonic (C "BMI")) BMI) bad in
  let bad := chk 36 (mn_eqb (str_to_mnemonic (C "BNE")) BNE) bad in
  let bad := chk 37 (mn_eqb (str_to_mnemonic (C "BPL")) BPL) bad in
  let bad := chk 38 (mn_eqb (str_to_mnemonic (C "BRK")) BRK) bad in
  let bad := chk 39 (mn_eqb (str_to_mnemonic (C "BVC")) BVC) bad in
  let bad := chk 40 (mn_eqb (str_to_mnemonic (C "BVS")) BVS) bad in
  let bad := chk 41 (mn_eqb (str_to_mnemonic (C "CLC")) CLC) bad in
  let bad := chk 42 (mn_eqb (str_to_mnemonic (C "CLD")) CLD) bad in
  let bad := chk 43 (mn_eqb (str_to_mnemonic (C "CLI")) CLI) bad in
  let bad := chk 44 (mn_eqb (str_to_mnemonic (C "CLV")) CLV) bad in
  let bad := chk 45 (mn_eqb (str_to_mnemonic (C "CMP")) CMP) bad in
  let bad := chk 46 (mn_eqb (str_to_mnemonic (C "CPX")) CPX) bad in
  let bad := chk 47 (mn_eqb (str_to_mnemonic (C "CPY")) CPY) bad in
  let bad := chk 48 (mn_eqb (str_to_mnemonic (C "DEC")) DEC) bad in
  let bad := chk 49 (mn_eqb (str_to_mnemonic (C "DEX")) DEX) bad in
  let bad := chk 50 (mn_eqb (str_to_mnemonic (C "DEY")) DEY) bad in
  let bad := chk 51 (mn_eqb (str_to_mnemonic (C "EOR")) EOR) bad in
  let bad := chk 52 (mn_eqb (str_to_mnemonic (C "INC")) INC) bad in
  let bad := chk 53 (mn_eqb (str_to_mnemonic (C "INX")) INX) bad in
  let bad := chk 54 (mn_eqb (str_to_mnemonic (C "INY")) INY) bad in
  let bad := chk 55 (mn_eqb (str_to_mnemonic (C "JMP")) JMP) bad in
  let bad := chk 56 (mn_eqb (str_to_mnemonic (C "JSR")) JSR) bad in
  let bad := chk 57 (mn_eqb (str_to_mnemonic (C "LDA")) LDA) bad in
  let bad := chk 58 (mn_eqb (str_to_mnemonic (C "LDX")) LDX) bad in
  let bad := chk 59 (mn_eqb (str_to_mnemonic (C "LDY")) LDY) bad in
  let bad := chk 60 (mn_eqb (str_to_mnemonic (C "LSR")) LSR) bad in
  let bad := chk 61 (mn_eqb (str_to_mnemonic (C "NOP")) NOP) bad in
  let bad := chk 62 (mn_eqb (str_to_mnemonic (C "ORA")) ORA) bad in
  let bad := chk 63 (mn_eqb (str_to_mnemonic (C "PHA")) PHA) bad in
  let bad := chk 64 (mn_eqb (str_to_mnemonic (C "PHP")) PHP) bad in
  let bad := chk 65 (mn_eqb (str_to_mnemonic (C "PLA")) PLA) bad in
  let bad := chk 66 (mn_eqb (str_to_mnemonic (C "PLP")) PLP) bad in
  let bad := chk 67 (mn_eqb (str_to_mnemonic (C "ROL")) ROL) bad in
  let bad := chk 68 (mn_eqb (str_to_mnemonic (C "ROR")) ROR) bad in
  let bad := chk 69 (mn_eqb (str_to_mnemonic (C "RTI")) RTI) bad in
  let bad := chk 70 (mn_eqb (str_to_mnemonic (C "RTS")) RTS) bad in
  let bad := chk 71 (mn_eqb (str_to_mnemonic (C "SBC")) SBC) bad in
  let bad := chk 72 (mn_eqb (str_to_mnemonic (C "SEC")) SEC) bad in
  let bad := chk 73 (mn_eqb (str_to_mnemonic (C "SED")) SED) bad in
  let bad := chk 74 (mn_eqb (str_to_mnemonic (C "SEI")) SEI) bad in
  let bad := chk 75 (mn_eqb (str_to_mnemonic (C "STA")) STA) bad in
  let bad := chk 76 (mn_eqb (str_to_mnemonic (C "STX")) STX) bad in
  let bad := chk 77 (mn_eqb (str_to_mnemonic (C "STY")) STY) bad in
  let bad := chk 78 (mn_eqb (str_to_mnemonic (C "TAX")) TAX) bad in
  let bad := chk 79 (mn_eqb (str_to_mnemonic (C "TAY")) TAY) bad in
  let bad := chk 80 (mn_eqb (str_to_mnemonic (C "TSX")) TSX) bad in
  let bad := chk 81 (mn_eqb (str_to_mnemonic (C "TXA")) TXA) bad in
  let bad := chk 82 (mn_eqb (str_to_mnemonic (C "TXS")) TXS) bad in
  let bad := chk 83 (mn_eqb (str_to_mnemonic (C "TYA")) TYA) bad in
  let bad := chk 85 (mn_eqb (str_to_mnemonic (C "TXSABCDEFG")) ILLEGAL_MNEMONIC) bad in
  let bad := chk 86 (mn_eqb (str_to_mnemonic (C "ABC")) ILLEGAL_MNEMONIC) bad in
  let bad := chk 87 (mn_eqb (str_to_mnemonic (C "13245")) ILLEGAL_MNEMONIC) bad in
  let bad := chk 88 (mn_eqb (str_to_mnemonic (C "KDSJFLSFJSKFJKSLJ")) ILLEGAL_MNEMONIC) bad in
  let bad := chk 89 (mn_eqb (str_to_mnemonic (C "JANUS")) ILLEGAL_MNEMONIC) bad in
  let bad := chk 90 (mn_eqb (str_to_mnemonic (C "STLOOP")) ILLEGAL_MNEMONIC) bad in
  let bad := chk 92 (mn_eqb (str_to_mnemonic (C "")) ILLEGAL_MNEMONIC) bad in
  Ret (rev bad).
Example test_str_to_mnemonic_passes : test_str_to_mnemonic = Ret [].
Proof. vm_compute. reflexivity. Qed.

(** test_get_addr_bitfield: 56 assertions *)
Definition test_get_addr_bitfield : M (list Z) :=
  let bad := @nil Z in
  let bad := chk 97 ((get_addr_bitfield ADC) =? ADC_BITFIELD) bad in
  let bad := chk 98 ((get_addr_bitfield AND) =? AND_BITFIELD) bad in
  let bad := chk 99 ((get_addr_bitfield ASL) =? ASL_BITFIELD) bad in
  let bad := chk 100 ((get_addr_bitfield BCC) =? BCC_BITFIELD) bad in
  let bad := chk 101 ((get_addr_bitfield BCS) =? BCS_BITFIELD) bad in
  let bad := chk 102 ((get_addr_bitfield BEQ) =? BEQ_BITFIELD) bad in
  let bad := chk 103 ((get_addr_bitfield BIT) =? BIT_BITFIELD) bad in
  let bad := chk 104 ((get_addr_bitfield BMI) =? BMI_BITFIELD) bad in
  let bad := chk 105 ((get_addr_bitfield BNE) =? BNE_BITFIELD) bad in
  let bad := chk 106 ((get_addr_bitfield BPL) =? BPL_BITFIELD) bad in
  let bad := chk 107 ((get_addr_bitfield BRK) =? BRK_BITFIELD) bad in
  let bad := chk 108 ((get_addr_bitfield BVC) =? BVC_BITFIELD) bad in
  let bad := chk 109 ((get_addr_bitfield BVS) =? BVS_BITFIELD) bad in
  let bad := chk 110 ((get_addr_bitfield CLC) =? CLC_BITFIELD) bad in
  let bad := chk 111 ((get_addr_bitfield CLD) =? CLD_BITFIELD) bad in
  let bad := chk 112 ((get_addr_bitfield CLI) =? CLI_BITFIELD) bad in
  let bad := chk 113 ((get_addr_bitfield CLV) =? CLV_BITFIELD) bad in
  let bad := chk 114 ((get_addr_bitfield CMP) =? CMP_BITFIELD) bad in
  let bad := chk 115 ((get_addr_bitfield CPX) =? CPX_BITFIELD) bad in
  let bad := chk 116 ((get_addr_bitfield CPY) =? CPY_BITFIELD) bad in
  let bad := chk 117 ((get_addr_bitfield DEC) =? DEC_BITFIELD) bad in
  let bad := chk 118 ((get_addr_bitfield DEX) =? DEX_BITFIELD) bad in
  let bad := chk 119 ((get_addr_bitfield DEY) =? DEY_BITFIELD) bad in
  let bad := chk 120 ((get_addr_bitfield EOR) =? EOR_BITFIELD) bad in
  let bad := chk 121 ((get_addr_bitfield INC) =? INC_BITFIELD) bad in
  let bad := chk 122 ((get_addr_bitfield INX) =? INX_BITFIELD) bad in
  let bad := chk 123 ((get_addr_bitfield INY) =? INY_BITFIELD) bad in
  let bad := chk 124 ((get_addr_bitfield JMP) =? JMP_BITFIELD) bad in
  let bad := chk 125 ((get_addr_bitfield JSR) =? JSR_BITFIELD) bad in
  let bad := chk 126 ((get_addr_bitfield LDA) =? LDA_BITFIELD) bad in
  let bad := chk 127 ((get_addr_bitfield LDX) =? LDX_BITFIELD) bad in
  let bad := chk 128 ((get_addr_bitfield LDY) =? LDY_BITFIELD) bad in
  let bad := chk 129 ((get_addr_bitfield LSR) =? LSR_BITFIELD) bad in
  let bad := chk 130 ((get_addr_bitfield NOP) =? NOP_BITFIELD) bad in
  let bad := chk 131 ((get_addr_bitfield ORA) =? ORA_BITFIELD) bad in
  let bad := chk 132 ((get_addr_bitfield PHA) =? PHA_BITFIELD) bad in
  let bad := chk 133 ((get_addr_bitfield PHP) =? PHP_BITFIELD) bad in
  let bad := chk 134 ((get_addr_bitfield PLA) =? PLA_BITFIELD) bad in
  let bad := chk 135 ((get_addr_bitfield PLP) =? PLP_BITFIELD) bad in
  let bad := chk 136 ((get_addr_bitfield ROL) =? ROL_BITFIELD) bad in
  let bad := chk 137 ((get_addr_bitfield ROR) =? ROR_BITFIELD) bad in
  let bad := chk 138 ((get_addr_bitfield RTI) =? RTI_BITFIELD) bad in
  let bad := chk 139 ((get_addr_bitfield RTS) =? RTS_BITFIELD) bad in
  let bad := chk 140 ((get_addr_bitfield SBC) =? SBC_BITFIELD) bad in
  let bad := chk 141 ((get_addr_bitfield SEC) =? SEC_BITFIELD) bad in
  let bad := chk 142 ((get_addr_bitfield SED) =? SED_BITFIELD) bad in
  let bad := chk 143 ((get_addr_bitfield SEI) =? SEI_BITFIELD) bad in
  let bad := chk 144 ((get_addr_bitfield STA) =? STA_BITFIELD) bad in
  let bad := chk 145 ((get_addr_bitfield STX) =? STX_BITFIELD) bad in
  let bad := chk 146 ((get_addr_bitfield STY) =? STY_BITFIELD) bad in
  let bad := chk 147 ((get_addr_bitfield TAX) =? TAX_BITFIELD) bad in
  let bad := chk 148 ((get_addr_bitfield TAY) =? TAY_BITFIELD) bad in
  let bad := chk 149 ((get_addr_bitfield TSX) =? TSX_BITFIELD) bad in
  let bad := chk 150 ((get_addr_bitfield TXA) =? TXA_BITFIELD) bad in
  let bad := chk 151 ((get_addr_bitfield TXS) =? TXS_BITFIELD) bad in
  let bad := chk 152 ((get_addr_bitfield TYA) =? TYA_BITFIELD) bad in
  Ret (rev bad).
Example test_get_addr_bitfield_passes : test_get_addr_bitfield = Ret [].
Proof. vm_compute. reflexivity. Qed.

(** test_get_opcode: 57 assertions *)
Definition test_get_opcode : M (list Z) :=
  let bad := @nil Z in
  let instr := init_instruction in
  let instr := set_mnemonic instr ADC in
  let instr := set_addr_bitfield instr ADC_BITFIELD in
  let instr := set_addr_bitflag instr ADDR_MODE_ABSOLUTE in
  let bad := chk 192 ((get_opcode instr) =? 109) bad in
  let instr := set_mnemonic instr AND in
  let instr := set_addr_bitfield instr AND_BITFIELD in
  let instr := set_addr_bitflag instr ADDR_MODE_ABSOLUTE in
  let bad := chk 196 ((get_opcode instr) =? 45) bad in
  let instr := set_mnemonic instr ASL in
  let instr := set_addr_bitfield instr ASL_BITFIELD in
  let instr := set_addr_bitflag instr ADDR_MODE_ABSOLUTE in
  let bad := chk 200 ((get_opcode instr) =? 14) bad in
  let instr := set_mnemonic instr BCC in
  let instr := set_addr_bitfield instr BCC_BITFIELD in
  let instr := set_addr_bitflag instr ADDR_MODE_ABSOLUTE in
  let bad := chk 204 ((get_opcode instr) =? ERROR_ILLEGAL_ADDRESSING_MODE) bad in
  let instr := set_mnemonic instr BCS in
  let instr := set_addr_bitfield instr BCS_BITFIELD in
  let instr := set_addr_bitflag instr ADDR_MODE_ABSOLUTE in
  let bad := chk 208 ((get_opcode instr) =? ERROR_ILLEGAL_ADDRESSING_MODE) bad in
  let instr := set_mnemonic instr BEQ in
  let instr := set_addr_bitfield instr BEQ_BITFIELD in
  let instr := set_addr_bitflag instr ADDR_MODE_ABSOLUTE in
  let bad := chk 212 ((get_opcode instr) =? ERROR_ILLEGAL_ADDRESSING_MODE) bad in
  let instr := set_mnemonic instr BIT in
  let instr := set_addr_bitfield instr BIT_BITFIELD in
  let instr := set_addr_bitflag instr ADDR_MODE_ABSOLUTE in
  let bad := chk 216 ((get_opcode instr) =? 44) bad in
  let instr := set_mnemonic instr BMI in
  let instr := set_addr_bitfield instr BMI_BITFIELD in
  let instr := set_addr_bitflag instr ADDR_MODE_ABSOLUTE in
  let bad := chk 220 ((get_opcode instr) =? ERROR_ILLEGAL_ADDRESSING_MODE) bad in
  let instr := set_mnemonic instr BNE in
  let instr := set_addr_bitfield instr BNE_BITFIELD in
  let instr := set_addr_bitflag instr ADDR_MODE_ABSOLUTE in
  let bad := chk 224 ((get_opcode instr) =? ERROR_ILLEGAL_ADDRESSING_MODE) bad in
  let instr := set_mnemonic instr BPL in
  let instr := set_addr_bitfield instr BPL_BITFIELD in
  let instr := set_addr_bitflag instr ADDR_MODE_ABSOLUTE in
  let bad := chk 228 ((get_opcode instr) =? ERROR_ILLEGAL_ADDRESSING_MODE) bad in
  let instr := set_mnemonic instr BRK in
  let instr := set_addr_bitfield instr BRK_BITFIELD in
  let instr := set_addr_bitflag instr ADDR_MODE_ABSOLUTE in
  let bad := chk 232 ((get_opcode instr) =? ERROR_ILLEGAL_ADDRESSING_MODE) bad in
  let instr := set_mnemonic instr BVC in
  let instr := set_addr_bitfield instr BVC_BITFIELD in
  let instr := set_addr_bitflag instr ADDR_MODE_ABSOLUTE in
  let bad := chk 236 ((get_opcode instr) =? ERROR_ILLEGAL_ADDRESSING_MODE) bad in
  let instr := set_mnemonic instr BVS in
  let instr := set_addr_bitfield instr BVS_BITFIELD in
  let instr := set_addr_bitflag instr ADDR_MODE_ABSOLUTE in
  let bad := chk 240 ((get_opcode instr) =? ERROR_ILLEGAL_ADDRESSING_MODE) bad in
  let instr := set_mnemonic instr CLC in
  let instr := set_addr_bitfield instr CLC_BITFIELD in
  let instr := set_addr_bitflag instr ADDR_MODE_ABSOLUTE in
  let bad := chk 244 ((get_opcode instr) =? ERROR_ILLEGAL_ADDRESSING_MODE) bad in
  let instr := set_mnemonic instr CLD in
  let instr := set_addr_bitfield instr CLD_BITFIELD in
  let instr := set_addr_bitflag instr ADDR_MODE_ABSOLUTE in
  let bad := chk 248 ((get_opcode instr) =? ERROR_ILLEGAL_ADDRESSING_MODE) bad in
  let instr := set_mnemonic instr CLI in
  let instr := set_addr_bitfield instr CLI_BITFIELD in
  let instr := set_addr_bitflag instr ADDR_MODE_ABSOLUTE in
  let bad := chk 252 ((get_opcode instr) =? ERROR_ILLEGAL_ADDRESSING_MODE) bad in
  let instr := set_mnemonic instr CLV in
  let instr := set_addr_bitfield instr CLV_BITFIELD in
  let instr := set_addr_bitflag instr ADDR_MODE_ABSOLUTE in
  let bad := chk 256 ((get_opcode instr) =? ERROR_ILLEGAL_ADDRESSING_MODE) bad in
  let instr := set_mnemonic instr CMP in
  let instr := set_addr_bitfield instr CMP_BITFIELD in
  let instr := set_addr_bitflag instr ADDR_MODE_ABSOLUTE in
  let bad := chk 260 ((get_opcode instr) =? 205) bad in
  let instr := set_mnemonic instr CPX in
  let instr := set_addr_bitfield instr CPX_BITFIELD in
  let instr := set_addr_bitflag instr ADDR_MODE_ABSOLUTE in
  let bad := chk 264 ((get_opcode instr) =? 236) bad in
  let instr := set_mnemonic instr CPY in
  let instr := set_addr_bitfield instr CPY_BITFIELD in
  let instr := set_addr_bitflag instr ADDR_MODE_ABSOLUTE in
  let bad := chk 268 ((get_opcode instr) =? 204) bad in
  let instr := set_mnemonic instr DEC in
  let instr := set_addr_bitfield instr DEC_BITFIELD in
  let instr := set_addr_bitflag instr ADDR_MODE_ABSOLUTE in
  let bad := chk 272 ((get_opcode instr) =? 206) bad in
  let instr := set_mnemonic instr DEX in
  let instr := set_addr_bitfield instr DEX_BITFIELD in
  let instr := set_addr_bitflag instr ADDR_MODE_ABSOLUTE in
  let bad := chk 276 ((get_opcode instr) =? ERROR_ILLEGAL_ADDRESSING_MODE) bad in
  let instr := set_mnemonic instr DEY in
  let instr := set_addr_bitfield instr DEY_BITFIELD in
  let instr := set_addr_bitflag instr ADDR_MODE_ABSOLUTE in
  let bad := chk 280 ((get_opcode instr) =? ERROR_ILLEGAL_ADDRESSING_MODE) bad in
  let instr := set_mnemonic instr EOR in
  let instr := set_addr_bitfield instr EOR_BITFIELD in
  let instr := set_addr_bitflag instr ADDR_MODE_ABSOLUTE in
  let bad := chk 284 ((get_opcode instr) =? 77) bad in
  let instr := set_mnemonic instr INC in
  let instr := set_addr_bitfield instr INC_BITFIELD in
  let instr := set_addr_bitflag instr ADDR_MODE_ABSOLUTE in
  let bad := chk 288 ((get_opcode instr) =? 238) bad in
  let instr := set_mnemonic instr INX in
  let instr := set_addr_bitfield instr INX_BITFIELD in
  let instr := set_addr_bitflag instr ADDR_MODE_ABSOLUTE in
  let bad := chk 292 ((get_opcode instr) =? ERROR_ILLEGAL_ADDRESSING_MODE) bad in
  let instr := set_mnemonic instr INY in
  let instr := set_addr_bitfield instr INY_BITFIELD in
  let instr := set_addr_bitflag instr ADDR_MODE_ABSOLUTE in
  let bad := chk 296 ((get_opcode instr) =? ERROR_ILLEGAL_ADDRESSING_MODE) bad in
  let instr := set_mnemonic instr JMP in
  let instr := set_addr_bitfield instr JMP_BITFIELD in
  let instr := set_addr_bitflag instr ADDR_MODE_ABSOLUTE in
  let bad := chk 300 ((get_opcode instr) =? 76) bad in
  let instr := set_mnemonic instr JSR in
  let instr := set_addr_bitfield instr JSR_BITFIELD in
  let instr := set_addr_bitflag instr ADDR_MODE_ABSOLUTE in
  let bad := chk 304 ((get_opcode instr) =? 32) bad in
  let instr := set_mnemonic instr LDA in
  let instr := set_addr_bitfield instr LDA_BITFIELD in
  let instr := set_addr_bitflag instr ADDR_MODE_ABSOLUTE in
  let bad := chk 308 ((get_opcode instr) =? 173) bad in
  let instr := set_mnemonic instr LDX in
  let instr := set_addr_bitfield instr LDX_BITFIELD in
  let instr := set_addr_bitflag instr ADDR_MODE_ABSOLUTE in
  let bad := chk 312 ((get_opcode instr) =? 174) bad in
  let instr := set_mnemonic instr LDY in
  let instr := set_addr_bitfield instr LDY_BITFIELD in
  let instr := set_addr_bitflag instr ADDR_MODE_ABSOLUTE in
  let bad := chk 316 ((get_opcode instr) =? 172) bad in
  let instr := set_mnemonic instr LSR in
  let instr := set_addr_bitfield instr LSR_BITFIELD in
  let instr := set_addr_bitflag instr ADDR_MODE_ABSOLUTE in
  let bad := chk 320 ((get_opcode instr) =? 78) bad in
  let instr := set_mnemonic instr NOP in
  let instr := set_addr_bitfield instr NOP_BITFIELD in
  let instr := set_addr_bitflag instr ADDR_MODE_ABSOLUTE in
  let bad := chk 324 ((get_opcode instr) =? ERROR_ILLEGAL_ADDRESSING_MODE) bad in
  let instr := set_mnemonic instr ORA in
  let instr := set_addr_bitfield instr ORA_BITFIELD in
  let instr := set_addr_bitflag instr ADDR_MODE_ABSOLUTE in
  let bad := chk 328 ((get_opcode instr) =? 13) bad in
  let instr := set_mnemonic instr PHA in
  let instr := set_addr_bitfield instr PHA_BITFIELD in
  let instr := set_addr_bitflag instr ADDR_MODE_ABSOLUTE in
  let bad := chk 332 ((get_opcode instr) =? ERROR_ILLEGAL_ADDRESSING_MODE) bad in
  let instr := set_mnemonic instr PHP in
  let instr := set_addr_bitfield instr PHP_BITFIELD in
  let instr := set_addr_bitflag instr ADDR_MODE_ABSOLUTE in
  let bad := chk 336 ((get_opcode instr) =? ERROR_ILLEGAL_ADDRESSING_MODE) bad in
  let instr := set_mnemonic instr PLA in
  let instr := set_addr_bitfield instr PLA_BITFIELD in
  let instr := set_addr_bitflag instr ADDR_MODE_ABSOLUTE in
  let bad := chk 340 ((get_opcode instr) =? ERROR_ILLEGAL_ADDRESSING_MODE) bad in
  let instr := set_mnemonic instr PLP in
  let instr := set_addr_bitfield instr PLP_BITFIELD in
  let instr := set_addr_bitflag instr ADDR_MODE_ABSOLUTE in
  let bad := chk 344 ((get_opcode instr) =? ERROR_ILLEGAL_ADDRESSING_MODE) bad in
  let instr := set_mnemonic instr ROL in
  let instr := set_addr_bitfield instr ROL_BITFIELD in
  let instr := set_addr_bitflag instr ADDR_MODE_ABSOLUTE in
  let bad := chk 348 ((get_opcode instr) =? 46) bad in
  let instr := set_mnemonic instr ROR in
  let instr := set_addr_bitfield instr ROR_BITFIELD in
  let instr := set_addr_bitflag instr ADDR_MODE_ABSOLUTE in
  let bad := chk 352 ((get_opcode instr) =? 110) bad in
  let instr := set_mnemonic instr RTI in
  let instr := set_addr_bitfield instr RTI_BITFIELD in
  let instr := set_addr_bitflag instr ADDR_MODE_ABSOLUTE in
  let bad := chk 356 ((get_opcode instr) =? ERROR_ILLEGAL_ADDRESSING_MODE) bad in
  let instr := set_mnemonic instr RTS in
  let instr := set_addr_bitfield instr RTS_BITFIELD in
  let instr := set_addr_bitflag instr ADDR_MODE_ABSOLUTE in
  let bad := chk 360 ((get_opcode instr) =? ERROR_ILLEGAL_ADDRESSING_MODE) bad in
  let instr := set_mnemonic instr SBC in
  let instr := set_addr_bitfield instr SBC_BITFIELD in
  let instr := set_addr_bitflag instr ADDR_MODE_ABSOLUTE in
  let bad := chk 364 ((get_opcode instr) =? 237) bad in
  let instr := set_mnemonic instr SEC in
  let instr := set_addr_bitfield instr SEC_BITFIELD in
  let instr := set_addr_bitflag instr ADDR_MODE_ABSOLUTE in
  let bad := chk 368 ((get_opcode instr) =? ERROR_ILLEGAL_ADDRESSING_MODE) bad in
  let instr := set_mnemonic instr SED in
  let instr := set_addr_bitfield instr SED_BITFIELD in
  let instr := set_addr_bitflag instr ADDR_MODE_ABSOLUTE in
  let bad := chk 372 ((get_opcode instr) =? ERROR_ILLEGAL_ADDRESSING_MODE) bad in
  let instr := set_mnemonic instr SEI in
  let instr := set_addr_bitfield instr SEI_BITFIELD in
  let instr := set_addr_bitflag instr ADDR_MODE_ABSOLUTE in
  let bad := chk 376 ((get_opcode instr) =? ERROR_ILLEGAL_ADDRESSING_MODE) bad in
  let instr := set_mnemonic instr STA in
  let instr := set_addr_bitfield instr STA_BITFIELD in
  let instr := set_addr_bitflag instr ADDR_MODE_ABSOLUTE in
  let bad := chk 380 ((get_opcode instr) =? 141) bad in
  let instr := set_mnemonic instr STX in
  let instr := set_addr_bitfield instr STX_BITFIELD in
  let instr := set_addr_bitflag instr ADDR_MODE_ABSOLUTE in
  let bad := chk 384 ((get_opcode instr) =? 142) bad in
  let instr := set_mnemonic instr STY in
  let instr := set_addr_bitfield instr STY_BITFIELD in
  let instr := set_addr_bitflag instr ADDR_MODE_ABSOLUTE in
  let bad := chk 388 ((get_opcode instr) =? 140) bad in
  let instr := set_mnemonic instr TAX in
  let instr := set_addr_bitfield instr TAX_BITFIELD in
  let instr := set_addr_bitflag instr ADDR_MODE_ABSOLUTE in
  let bad := chk 392 ((get_opcode instr) =? ERROR_ILLEGAL_ADDRESSING_MODE) bad in
  let instr := set_mnemonic instr TAY in
  let instr := set_addr_bitfield instr TAY_BITFIELD in
  let instr := set_addr_bitflag instr ADDR_MODE_ABSOLUTE in
  let bad := chk 396 ((get_opcode instr) =? ERROR_ILLEGAL_ADDRESSING_MODE) bad in
  let instr := set_mnemonic instr TSX in
  let instr := set_addr_bitfield instr TSX_BITFIELD in
  let instr := set_addr_bitflag instr ADDR_MODE_ABSOLUTE in
  let bad := chk 400 ((get_opcode instr) =? ERROR_ILLEGAL_ADDRESSING_MODE) bad in
  let instr := set_mnemonic instr TXA in
  let instr := set_addr_bitfield instr TXA_BITFIELD in
  let instr := set_addr_bitflag instr ADDR_MODE_ABSOLUTE in
  let bad := chk 404 ((get_opcode instr) =? ERROR_ILLEGAL_ADDRESSING_MODE) bad in
  let instr := set_mnemonic instr TXS in
  let instr := set_addr_bitfield instr TXS_BITFIELD in
  let instr := set_addr_bitflag instr ADDR_MODE_ABSOLUTE in
  let bad := chk 408 ((get_opcode instr) =? ERROR_ILLEGAL_ADDRESSING_MODE) bad in
  let instr := set_mnemonic instr TYA in
  let instr := set_addr_bitfield instr TYA_BITFIELD in
  let instr := set_addr_bitflag instr ADDR_MODE_ABSOLUTE in
  let bad := chk 412 ((get_opcode instr) =? ERROR_ILLEGAL_ADDRESSING_MODE) bad in
  let instr := set_mnemonic instr ILLEGAL_MNEMONIC in
  let bad := chk 415 ((get_opcode instr) =? ERROR_ILLEGAL_MNEMONIC) bad in
  Ret (rev bad).
Example test_get_opcode_passes : test_get_opcode = Ret [].
Proof. vm_compute. reflexivity. Qed.

