(** Model_Opcode.v -- model of src/opcode.h, src/opcode.c, src/bitfields.h,
    src/addressing_modes.h, src/assemble.c and of the error codes of src/error.h. *)
From Verif Require Import Base.

(** ** src/error.h:12-43, the error codes *)
Definition ERROR_MEMORY_ALLOCATION_FAIL : Z := -1. (* src/error.h:11 *)
Definition ERROR_SYMBOL_NOT_FOUND : Z := -2. (* src/error.h:14 *)
Definition ERROR_ILLEGAL_CHAR : Z := -3. (* src/error.h:16 *)
Definition ERROR_TOO_BIG_LITERAL : Z := -4. (* src/error.h:17 *)
Definition ERROR_INSTRUCTION_NOT_FOUND : Z := -5. (* src/error.h:20 *)
Definition ERROR_BITFIELD_NOT_FOUND : Z := -6. (* src/error.h:23 *)
Definition ERROR_TOO_LONG_LABEL : Z := -7. (* src/error.h:25 *)
Definition ERROR_TOO_MANY_TOKENS : Z := -8. (* src/error.h:26 *)
Definition ERROR_UNKNOWN : Z := -9. (* src/error.h:27 *)
Definition ERROR_ILLEGAL_SEQUENCE : Z := -10. (* src/error.h:28 *)
Definition ERROR_LABEL_REDEFINITION : Z := -11. (* src/error.h:29 *)
Definition ERROR_ILLEGAL_FORWARD_REFERENCE : Z := -12. (* src/error.h:30 *)
Definition ERROR_ILLEGAL_ADDRESSING_MODE : Z := -13. (* src/error.h:31 *)
Definition ERROR_ILLEGAL_MNEMONIC : Z := -14. (* src/error.h:34 *)
Definition ERROR_TOO_BIG_OFFSET : Z := -15. (* src/error.h:36 *)
Definition ERROR_FILE_OPEN_FAIL : Z := -16. (* src/error.h:37 *)
Definition ERROR_BINARY_FILE_CREATION_FAIL : Z := -17. (* src/error.h:38 *)
Definition ERROR_MISSING_LABEL_DEFINITION : Z := -18. (* src/error.h:39 *)
Definition ERROR_ILLEGAL_DIRECTIVE : Z := -19. (* src/error.h:40 *)
Definition ERROR_ILLEGAL_BASE : Z := -20. (* src/error.h:41 *)

(** ** src/addressing_modes.h:74-95, addressing-mode flags and fields *)
Definition ADDR_MODE_ACCUMULATOR : Z := 0x1000. (* 0b1000000000000, src/addressing_modes.h:75 *)
Definition ADDR_MODE_IMPLIED : Z := 0x0800. (* 0b0100000000000, src/addressing_modes.h:76 *)
Definition ADDR_MODE_IMMEDIATE : Z := 0x0400. (* 0b0010000000000, src/addressing_modes.h:77 *)
Definition ADDR_MODE_RELATIVE : Z := 0x0200. (* 0b0001000000000, src/addressing_modes.h:78 *)
Definition ADDR_MODE_ABSOLUTE : Z := 0x0100. (* 0b0000100000000, src/addressing_modes.h:79 *)
Definition ADDR_MODE_ABSOLUTE_X : Z := 0x0080. (* 0b0000010000000, src/addressing_modes.h:80 *)
Definition ADDR_MODE_ABSOLUTE_Y : Z := 0x0040. (* 0b0000001000000, src/addressing_modes.h:81 *)
Definition ADDR_MODE_INDIRECT : Z := 0x0020. (* 0b0000000100000, src/addressing_modes.h:82 *)
Definition ADDR_MODE_X_INDEXED_INDIRECT : Z := 0x0010. (* 0b0000000010000, src/addressing_modes.h:83 *)
Definition ADDR_MODE_INDIRECT_Y_INDEXED : Z := 0x0008. (* 0b0000000001000, src/addressing_modes.h:84 *)
Definition ADDR_MODE_ZERO_PAGE : Z := 0x0004. (* 0b0000000000100, src/addressing_modes.h:85 *)
Definition ADDR_MODE_ZERO_PAGE_X : Z := 0x0002. (* 0b0000000000010, src/addressing_modes.h:86 *)
Definition ADDR_MODE_ZERO_PAGE_Y : Z := 0x0001. (* 0b0000000000001, src/addressing_modes.h:87 *)
Definition ABSOLUTE_FIELD : Z := 0x01e0. (* 0b0000111100000, src/addressing_modes.h:89 *)
Definition INDIRECT_FIELD : Z := 0x0038. (* 0b0000000111000, src/addressing_modes.h:90 *)
Definition ZERO_PAGE_FIELD : Z := 0x061f. (* 0b0011000011111, src/addressing_modes.h:91 *)
Definition X_REGISTER_FIELD : Z := 0x0092. (* 0b0000010010010, src/addressing_modes.h:93 *)
Definition Y_REGISTER_FIELD : Z := 0x0049. (* 0b0000001001001, src/addressing_modes.h:94 *)
Definition NOT_REGISTER_FIELD : Z := 0x1f24. (* 0b1111100100100, src/addressing_modes.h:95 *)
Definition NOT_INDIRECT_FIELD : Z := 0x1fc7. (* 0b1111111000111, src/addressing_modes.h:96 *)

(** ** src/opcode.h:12-23, enum Mnemonic *)
Inductive Mnemonic :=
| ADC | AND | ASL | BCC | BCS | BEQ | BIT | BMI
| BNE | BPL | BRK | BVC | BVS | CLC | CLD | CLI
| CLV | CMP | CPX | CPY | DEC | DEX | DEY | EOR
| INC | INX | INY | JMP | JSR | LDA | LDX | LDY
| LSR | NOP | ORA | PHA | PHP | PLA | PLP | ROL
| ROR | RTI | RTS | SBC | SEC | SED | SEI | STA
| STX | STY | TAX | TAY | TSX | TXA | TXS | TYA
| NUM_MNEMONICS | NULL_MNEMONIC | ILLEGAL_MNEMONIC.

(** src/opcode.h:25-30, struct Instruction *)
Record Instruction := mkInstr {
  i_mnemonic : Mnemonic;
  i_bitfield : Z;   (* addr_bitfield *)
  i_bitflag : Z;    (* addr_bitflag *)
  i_opcode : Z }.

(** src/opcode.c:23-34 init_instruction (allocation success; failure is in
    Model_Main) *)
Definition init_instruction : Instruction := mkInstr NULL_MNEMONIC 0 0 0.

(** src/opcode.c:42-51 reset_instruction *)
Definition reset_instruction (i : Instruction) : Instruction := mkInstr NULL_MNEMONIC 0 0 0.

(** src/opcode.c:71-86 is_branch *)
Definition is_branch (m : Mnemonic) : bool :=
  match m with
  | BCC | BCS | BEQ | BMI | BNE | BPL | BVC | BVS => true
  | _ => false
  end.

(** src/opcode.c:95-98 is_jump *)
Definition is_jump (m : Mnemonic) : bool :=
  match m with JMP | JSR => true | _ => false end.

(** src/opcode.c:112-174 str_to_mnemonic (the argument is never NULL in the
    program: it is the text of a token) *)
Definition str_to_mnemonic (str : text) : Mnemonic :=
  if text_eqb (T "ADC") str then ADC else
  if text_eqb (T "AND") str then AND else
  if text_eqb (T "ASL") str then ASL else
  if text_eqb (T "BCC") str then BCC else
  if text_eqb (T "BCS") str then BCS else
  if text_eqb (T "BEQ") str then BEQ else
  if text_eqb (T "BIT") str then BIT else
  if text_eqb (T "BMI") str then BMI else
  if text_eqb (T "BNE") str then BNE else
  if text_eqb (T "BPL") str then BPL else
  if text_eqb (T "BRK") str then BRK else
  if text_eqb (T "BVC") str then BVC else
  if text_eqb (T "BVS") str then BVS else
  if text_eqb (T "CLC") str then CLC else
  if text_eqb (T "CLD") str then CLD else
  if text_eqb (T "CLI") str then CLI else
  if text_eqb (T "CLV") str then CLV else
  if text_eqb (T "CMP") str then CMP else
  if text_eqb (T "CPX") str then CPX else
  if text_eqb (T "CPY") str then CPY else
  if text_eqb (T "DEC") str then DEC else
  if text_eqb (T "DEX") str then DEX else
  if text_eqb (T "DEY") str then DEY else
  if text_eqb (T "EOR") str then EOR else
  if text_eqb (T "INC") str then INC else
  if text_eqb (T "INX") str then INX else
  if text_eqb (T "INY") str then INY else
  if text_eqb (T "JMP") str then JMP else
  if text_eqb (T "JSR") str then JSR else
  if text_eqb (T "LDA") str then LDA else
  if text_eqb (T "LDX") str then LDX else
  if text_eqb (T "LDY") str then LDY else
  if text_eqb (T "LSR") str then LSR else
  if text_eqb (T "NOP") str then NOP else
  if text_eqb (T "ORA") str then ORA else
  if text_eqb (T "PHA") str then PHA else
  if text_eqb (T "PHP") str then PHP else
  if text_eqb (T "PLA") str then PLA else
  if text_eqb (T "PLP") str then PLP else
  if text_eqb (T "ROL") str then ROL else
  if text_eqb (T "ROR") str then ROR else
  if text_eqb (T "RTI") str then RTI else
  if text_eqb (T "RTS") str then RTS else
  if text_eqb (T "SBC") str then SBC else
  if text_eqb (T "SEC") str then SEC else
  if text_eqb (T "SED") str then SED else
  if text_eqb (T "SEI") str then SEI else
  if text_eqb (T "STA") str then STA else
  if text_eqb (T "STX") str then STX else
  if text_eqb (T "STY") str then STY else
  if text_eqb (T "TAX") str then TAX else
  if text_eqb (T "TAY") str then TAY else
  if text_eqb (T "TSX") str then TSX else
  if text_eqb (T "TXA") str then TXA else
  if text_eqb (T "TXS") str then TXS else
  if text_eqb (T "TYA") str then TYA else
  ILLEGAL_MNEMONIC.

(** ** src/bitfields.h:18-73 *)
Definition ADC_BITFIELD : Z := 0x05de. (* 0b0010111011110, src/bitfields.h:17 *)
Definition AND_BITFIELD : Z := 0x05de. (* 0b0010111011110, src/bitfields.h:18 *)
Definition ASL_BITFIELD : Z := 0x1186. (* 0b1000110000110, src/bitfields.h:19 *)
Definition BCC_BITFIELD : Z := 0x0200. (* 0b0001000000000, src/bitfields.h:20 *)
Definition BCS_BITFIELD : Z := 0x0200. (* 0b0001000000000, src/bitfields.h:21 *)
Definition BEQ_BITFIELD : Z := 0x0200. (* 0b0001000000000, src/bitfields.h:22 *)
Definition BIT_BITFIELD : Z := 0x0104. (* 0b0000100000100, src/bitfields.h:23 *)
Definition BMI_BITFIELD : Z := 0x0200. (* 0b0001000000000, src/bitfields.h:24 *)
Definition BNE_BITFIELD : Z := 0x0200. (* 0b0001000000000, src/bitfields.h:25 *)
Definition BPL_BITFIELD : Z := 0x0200. (* 0b0001000000000, src/bitfields.h:26 *)
Definition BRK_BITFIELD : Z := 0x0800. (* 0b0100000000000, src/bitfields.h:27 *)
Definition BVC_BITFIELD : Z := 0x0200. (* 0b0001000000000, src/bitfields.h:28 *)
Definition BVS_BITFIELD : Z := 0x0200. (* 0b0001000000000, src/bitfields.h:29 *)
Definition CLC_BITFIELD : Z := 0x0800. (* 0b0100000000000, src/bitfields.h:30 *)
Definition CLD_BITFIELD : Z := 0x0800. (* 0b0100000000000, src/bitfields.h:31 *)
Definition CLI_BITFIELD : Z := 0x0800. (* 0b0100000000000, src/bitfields.h:32 *)
Definition CLV_BITFIELD : Z := 0x0800. (* 0b0100000000000, src/bitfields.h:33 *)
Definition CMP_BITFIELD : Z := 0x05de. (* 0b0010111011110, src/bitfields.h:34 *)
Definition CPX_BITFIELD : Z := 0x0504. (* 0b0010100000100, src/bitfields.h:35 *)
Definition CPY_BITFIELD : Z := 0x0504. (* 0b0010100000100, src/bitfields.h:36 *)
Definition DEC_BITFIELD : Z := 0x0186. (* 0b0000110000110, src/bitfields.h:37 *)
Definition DEX_BITFIELD : Z := 0x0800. (* 0b0100000000000, src/bitfields.h:38 *)
Definition DEY_BITFIELD : Z := 0x0800. (* 0b0100000000000, src/bitfields.h:39 *)
Definition EOR_BITFIELD : Z := 0x05de. (* 0b0010111011110, src/bitfields.h:40 *)
Definition INC_BITFIELD : Z := 0x0186. (* 0b0000110000110, src/bitfields.h:41 *)
Definition INX_BITFIELD : Z := 0x0800. (* 0b0100000000000, src/bitfields.h:42 *)
Definition INY_BITFIELD : Z := 0x0800. (* 0b0100000000000, src/bitfields.h:43 *)
Definition JMP_BITFIELD : Z := 0x0120. (* 0b0000100100000, src/bitfields.h:44 *)
Definition JSR_BITFIELD : Z := 0x0100. (* 0b0000100000000, src/bitfields.h:45 *)
Definition LDA_BITFIELD : Z := 0x05de. (* 0b0010111011110, src/bitfields.h:46 *)
Definition LDX_BITFIELD : Z := 0x0545. (* 0b0010101000101, src/bitfields.h:47 *)
Definition LDY_BITFIELD : Z := 0x0586. (* 0b0010110000110, src/bitfields.h:48 *)
Definition LSR_BITFIELD : Z := 0x1186. (* 0b1000110000110, src/bitfields.h:49 *)
Definition NOP_BITFIELD : Z := 0x0800. (* 0b0100000000000, src/bitfields.h:50 *)
Definition ORA_BITFIELD : Z := 0x05de. (* 0b0010111011110, src/bitfields.h:51 *)
Definition PHA_BITFIELD : Z := 0x0800. (* 0b0100000000000, src/bitfields.h:52 *)
Definition PHP_BITFIELD : Z := 0x0800. (* 0b0100000000000, src/bitfields.h:53 *)
Definition PLA_BITFIELD : Z := 0x0800. (* 0b0100000000000, src/bitfields.h:54 *)
Definition PLP_BITFIELD : Z := 0x0800. (* 0b0100000000000, src/bitfields.h:55 *)
Definition ROL_BITFIELD : Z := 0x1186. (* 0b1000110000110, src/bitfields.h:56 *)
Definition ROR_BITFIELD : Z := 0x1186. (* 0b1000110000110, src/bitfields.h:57 *)
Definition RTI_BITFIELD : Z := 0x0800. (* 0b0100000000000, src/bitfields.h:58 *)
Definition RTS_BITFIELD : Z := 0x0800. (* 0b0100000000000, src/bitfields.h:59 *)
Definition SBC_BITFIELD : Z := 0x05de. (* 0b0010111011110, src/bitfields.h:60 *)
Definition SEC_BITFIELD : Z := 0x0800. (* 0b0100000000000, src/bitfields.h:61 *)
Definition SED_BITFIELD : Z := 0x0800. (* 0b0100000000000, src/bitfields.h:62 *)
Definition SEI_BITFIELD : Z := 0x0800. (* 0b0100000000000, src/bitfields.h:63 *)
Definition STA_BITFIELD : Z := 0x01de. (* 0b0000111011110, src/bitfields.h:64 *)
Definition STX_BITFIELD : Z := 0x0105. (* 0b0000100000101, src/bitfields.h:65 *)
Definition STY_BITFIELD : Z := 0x0106. (* 0b0000100000110, src/bitfields.h:66 *)
Definition TAX_BITFIELD : Z := 0x0800. (* 0b0100000000000, src/bitfields.h:67 *)
Definition TAY_BITFIELD : Z := 0x0800. (* 0b0100000000000, src/bitfields.h:68 *)
Definition TSX_BITFIELD : Z := 0x0800. (* 0b0100000000000, src/bitfields.h:69 *)
Definition TXA_BITFIELD : Z := 0x0800. (* 0b0100000000000, src/bitfields.h:70 *)
Definition TXS_BITFIELD : Z := 0x0800. (* 0b0100000000000, src/bitfields.h:71 *)
Definition TYA_BITFIELD : Z := 0x0800. (* 0b0100000000000, src/bitfields.h:72 *)

(** src/opcode.c:184-245 get_addr_bitfield *)
Definition get_addr_bitfield (m : Mnemonic) : Z :=
  match m with
  | ADC => ADC_BITFIELD
  | AND => AND_BITFIELD
  | ASL => ASL_BITFIELD
  | BCC => BCC_BITFIELD
  | BCS => BCS_BITFIELD
  | BEQ => BEQ_BITFIELD
  | BIT => BIT_BITFIELD
  | BMI => BMI_BITFIELD
  | BNE => BNE_BITFIELD
  | BPL => BPL_BITFIELD
  | BRK => BRK_BITFIELD
  | BVC => BVC_BITFIELD
  | BVS => BVS_BITFIELD
  | CLC => CLC_BITFIELD
  | CLD => CLD_BITFIELD
  | CLI => CLI_BITFIELD
  | CLV => CLV_BITFIELD
  | CMP => CMP_BITFIELD
  | CPX => CPX_BITFIELD
  | CPY => CPY_BITFIELD
  | DEC => DEC_BITFIELD
  | DEX => DEX_BITFIELD
  | DEY => DEY_BITFIELD
  | EOR => EOR_BITFIELD
  | INC => INC_BITFIELD
  | INX => INX_BITFIELD
  | INY => INY_BITFIELD
  | JMP => JMP_BITFIELD
  | JSR => JSR_BITFIELD
  | LDA => LDA_BITFIELD
  | LDX => LDX_BITFIELD
  | LDY => LDY_BITFIELD
  | LSR => LSR_BITFIELD
  | NOP => NOP_BITFIELD
  | ORA => ORA_BITFIELD
  | PHA => PHA_BITFIELD
  | PHP => PHP_BITFIELD
  | PLA => PLA_BITFIELD
  | PLP => PLP_BITFIELD
  | ROL => ROL_BITFIELD
  | ROR => ROR_BITFIELD
  | RTI => RTI_BITFIELD
  | RTS => RTS_BITFIELD
  | SBC => SBC_BITFIELD
  | SEC => SEC_BITFIELD
  | SED => SED_BITFIELD
  | SEI => SEI_BITFIELD
  | STA => STA_BITFIELD
  | STX => STX_BITFIELD
  | STY => STY_BITFIELD
  | TAX => TAX_BITFIELD
  | TAY => TAY_BITFIELD
  | TSX => TSX_BITFIELD
  | TXA => TXA_BITFIELD
  | TXS => TXS_BITFIELD
  | TYA => TYA_BITFIELD
  | _ => ERROR_BITFIELD_NOT_FOUND
  end.

(** ** src/assemble.c, one function per mnemonic *)
(** src/assemble.c:14-27 *)
Definition assemble_ADC (bitflag : Z) : Z :=
  switch bitflag
    [(ADDR_MODE_IMMEDIATE, 0x69);
     (ADDR_MODE_ZERO_PAGE, 0x65);
     (ADDR_MODE_ZERO_PAGE_X, 0x75);
     (ADDR_MODE_ABSOLUTE, 0x6d);
     (ADDR_MODE_ABSOLUTE_X, 0x7d);
     (ADDR_MODE_ABSOLUTE_Y, 0x79);
     (ADDR_MODE_X_INDEXED_INDIRECT, 0x61);
     (ADDR_MODE_INDIRECT_Y_INDEXED, 0x71)]
    ERROR_ILLEGAL_ADDRESSING_MODE.
(** src/assemble.c:29-42 *)
Definition assemble_AND (bitflag : Z) : Z :=
  switch bitflag
    [(ADDR_MODE_IMMEDIATE, 0x29);
     (ADDR_MODE_ZERO_PAGE, 0x25);
     (ADDR_MODE_ZERO_PAGE_X, 0x35);
     (ADDR_MODE_ABSOLUTE, 0x2d);
     (ADDR_MODE_ABSOLUTE_X, 0x3d);
     (ADDR_MODE_ABSOLUTE_Y, 0x39);
     (ADDR_MODE_X_INDEXED_INDIRECT, 0x21);
     (ADDR_MODE_INDIRECT_Y_INDEXED, 0x31)]
    ERROR_ILLEGAL_ADDRESSING_MODE.
(** src/assemble.c:44-54 *)
Definition assemble_ASL (bitflag : Z) : Z :=
  switch bitflag
    [(ADDR_MODE_ACCUMULATOR, 0xa);
     (ADDR_MODE_ZERO_PAGE, 0x6);
     (ADDR_MODE_ZERO_PAGE_X, 0x16);
     (ADDR_MODE_ABSOLUTE, 0xe);
     (ADDR_MODE_ABSOLUTE_X, 0x1e)]
    ERROR_ILLEGAL_ADDRESSING_MODE.
(** src/assemble.c:56-62 *)
Definition assemble_BCC (bitflag : Z) : Z :=
  switch bitflag
    [(ADDR_MODE_RELATIVE, 0x90)]
    ERROR_ILLEGAL_ADDRESSING_MODE.
(** src/assemble.c:64-70 *)
Definition assemble_BCS (bitflag : Z) : Z :=
  switch bitflag
    [(ADDR_MODE_RELATIVE, 0xb0)]
    ERROR_ILLEGAL_ADDRESSING_MODE.
(** src/assemble.c:72-78 *)
Definition assemble_BEQ (bitflag : Z) : Z :=
  switch bitflag
    [(ADDR_MODE_RELATIVE, 0xf0)]
    ERROR_ILLEGAL_ADDRESSING_MODE.
(** src/assemble.c:80-87 *)
Definition assemble_BIT (bitflag : Z) : Z :=
  switch bitflag
    [(ADDR_MODE_ZERO_PAGE, 0x24);
     (ADDR_MODE_ABSOLUTE, 0x2c)]
    ERROR_ILLEGAL_ADDRESSING_MODE.
(** src/assemble.c:89-95 *)
Definition assemble_BMI (bitflag : Z) : Z :=
  switch bitflag
    [(ADDR_MODE_RELATIVE, 0x30)]
    ERROR_ILLEGAL_ADDRESSING_MODE.
(** src/assemble.c:97-103 *)
Definition assemble_BNE (bitflag : Z) : Z :=
  switch bitflag
    [(ADDR_MODE_RELATIVE, 0xd0)]
    ERROR_ILLEGAL_ADDRESSING_MODE.
(** src/assemble.c:105-111 *)
Definition assemble_BPL (bitflag : Z) : Z :=
  switch bitflag
    [(ADDR_MODE_RELATIVE, 0x10)]
    ERROR_ILLEGAL_ADDRESSING_MODE.
(** src/assemble.c:113-119 *)
Definition assemble_BRK (bitflag : Z) : Z :=
  switch bitflag
    [(ADDR_MODE_IMPLIED, 0x0)]
    ERROR_ILLEGAL_ADDRESSING_MODE.
(** src/assemble.c:121-127 *)
Definition assemble_BVC (bitflag : Z) : Z :=
  switch bitflag
    [(ADDR_MODE_RELATIVE, 0x50)]
    ERROR_ILLEGAL_ADDRESSING_MODE.
(** src/assemble.c:129-135 *)
Definition assemble_BVS (bitflag : Z) : Z :=
  switch bitflag
    [(ADDR_MODE_RELATIVE, 0x70)]
    ERROR_ILLEGAL_ADDRESSING_MODE.
(** src/assemble.c:137-143 *)
Definition assemble_CLC (bitflag : Z) : Z :=
  switch bitflag
    [(ADDR_MODE_IMPLIED, 0x18)]
    ERROR_ILLEGAL_ADDRESSING_MODE.
(** src/assemble.c:145-151 *)
Definition assemble_CLD (bitflag : Z) : Z :=
  switch bitflag
    [(ADDR_MODE_IMPLIED, 0xd8)]
    ERROR_ILLEGAL_ADDRESSING_MODE.
(** src/assemble.c:153-159 *)
Definition assemble_CLI (bitflag : Z) : Z :=
  switch bitflag
    [(ADDR_MODE_IMPLIED, 0x58)]
    ERROR_ILLEGAL_ADDRESSING_MODE.
(** src/assemble.c:161-167 *)
Definition assemble_CLV (bitflag : Z) : Z :=
  switch bitflag
    [(ADDR_MODE_IMPLIED, 0xb8)]
    ERROR_ILLEGAL_ADDRESSING_MODE.
(** src/assemble.c:169-182 *)
Definition assemble_CMP (bitflag : Z) : Z :=
  switch bitflag
    [(ADDR_MODE_IMMEDIATE, 0xc9);
     (ADDR_MODE_ZERO_PAGE, 0xc5);
     (ADDR_MODE_ZERO_PAGE_X, 0xd5);
     (ADDR_MODE_ABSOLUTE, 0xcd);
     (ADDR_MODE_ABSOLUTE_X, 0xdd);
     (ADDR_MODE_ABSOLUTE_Y, 0xd9);
     (ADDR_MODE_X_INDEXED_INDIRECT, 0xc1);
     (ADDR_MODE_INDIRECT_Y_INDEXED, 0xd1)]
    ERROR_ILLEGAL_ADDRESSING_MODE.
(** src/assemble.c:184-192 *)
Definition assemble_CPX (bitflag : Z) : Z :=
  switch bitflag
    [(ADDR_MODE_IMMEDIATE, 0xe0);
     (ADDR_MODE_ZERO_PAGE, 0xe4);
     (ADDR_MODE_ABSOLUTE, 0xec)]
    ERROR_ILLEGAL_ADDRESSING_MODE.
(** src/assemble.c:194-202 *)
Definition assemble_CPY (bitflag : Z) : Z :=
  switch bitflag
    [(ADDR_MODE_IMMEDIATE, 0xc0);
     (ADDR_MODE_ZERO_PAGE, 0xc4);
     (ADDR_MODE_ABSOLUTE, 0xcc)]
    ERROR_ILLEGAL_ADDRESSING_MODE.
(** src/assemble.c:204-213 *)
Definition assemble_DEC (bitflag : Z) : Z :=
  switch bitflag
    [(ADDR_MODE_ZERO_PAGE, 0xc6);
     (ADDR_MODE_ZERO_PAGE_X, 0xd6);
     (ADDR_MODE_ABSOLUTE, 0xce);
     (ADDR_MODE_ABSOLUTE_X, 0xde)]
    ERROR_ILLEGAL_ADDRESSING_MODE.
(** src/assemble.c:215-221 *)
Definition assemble_DEX (bitflag : Z) : Z :=
  switch bitflag
    [(ADDR_MODE_IMPLIED, 0xca)]
    ERROR_ILLEGAL_ADDRESSING_MODE.
(** src/assemble.c:223-229 *)
Definition assemble_DEY (bitflag : Z) : Z :=
  switch bitflag
    [(ADDR_MODE_IMPLIED, 0x88)]
    ERROR_ILLEGAL_ADDRESSING_MODE.
(** src/assemble.c:231-244 *)
Definition assemble_EOR (bitflag : Z) : Z :=
  switch bitflag
    [(ADDR_MODE_IMMEDIATE, 0x49);
     (ADDR_MODE_ZERO_PAGE, 0x45);
     (ADDR_MODE_ZERO_PAGE_X, 0x55);
     (ADDR_MODE_ABSOLUTE, 0x4d);
     (ADDR_MODE_ABSOLUTE_X, 0x5d);
     (ADDR_MODE_ABSOLUTE_Y, 0x59);
     (ADDR_MODE_X_INDEXED_INDIRECT, 0x41);
     (ADDR_MODE_INDIRECT_Y_INDEXED, 0x51)]
    ERROR_ILLEGAL_ADDRESSING_MODE.
(** src/assemble.c:246-255 *)
Definition assemble_INC (bitflag : Z) : Z :=
  switch bitflag
    [(ADDR_MODE_ZERO_PAGE, 0xe6);
     (ADDR_MODE_ZERO_PAGE_X, 0xf6);
     (ADDR_MODE_ABSOLUTE, 0xee);
     (ADDR_MODE_ABSOLUTE_X, 0xfe)]
    ERROR_ILLEGAL_ADDRESSING_MODE.
(** src/assemble.c:257-263 *)
Definition assemble_INX (bitflag : Z) : Z :=
  switch bitflag
    [(ADDR_MODE_IMPLIED, 0xe8)]
    ERROR_ILLEGAL_ADDRESSING_MODE.
(** src/assemble.c:265-271 *)
Definition assemble_INY (bitflag : Z) : Z :=
  switch bitflag
    [(ADDR_MODE_IMPLIED, 0xc8)]
    ERROR_ILLEGAL_ADDRESSING_MODE.
(** src/assemble.c:273-280 *)
Definition assemble_JMP (bitflag : Z) : Z :=
  switch bitflag
    [(ADDR_MODE_ABSOLUTE, 0x4c);
     (ADDR_MODE_INDIRECT, 0x6c)]
    ERROR_ILLEGAL_ADDRESSING_MODE.
(** src/assemble.c:282-288 *)
Definition assemble_JSR (bitflag : Z) : Z :=
  switch bitflag
    [(ADDR_MODE_ABSOLUTE, 0x20)]
    ERROR_ILLEGAL_ADDRESSING_MODE.
(** src/assemble.c:290-303 *)
Definition assemble_LDA (bitflag : Z) : Z :=
  switch bitflag
    [(ADDR_MODE_IMMEDIATE, 0xa9);
     (ADDR_MODE_ZERO_PAGE, 0xa5);
     (ADDR_MODE_ZERO_PAGE_X, 0xb5);
     (ADDR_MODE_ABSOLUTE, 0xad);
     (ADDR_MODE_ABSOLUTE_X, 0xbd);
     (ADDR_MODE_ABSOLUTE_Y, 0xb9);
     (ADDR_MODE_X_INDEXED_INDIRECT, 0xa1);
     (ADDR_MODE_INDIRECT_Y_INDEXED, 0xb1)]
    ERROR_ILLEGAL_ADDRESSING_MODE.
(** src/assemble.c:305-315 *)
Definition assemble_LDX (bitflag : Z) : Z :=
  switch bitflag
    [(ADDR_MODE_IMMEDIATE, 0xa2);
     (ADDR_MODE_ZERO_PAGE, 0xa6);
     (ADDR_MODE_ZERO_PAGE_Y, 0xb6);
     (ADDR_MODE_ABSOLUTE, 0xae);
     (ADDR_MODE_ABSOLUTE_Y, 0xbe)]
    ERROR_ILLEGAL_ADDRESSING_MODE.
(** src/assemble.c:317-327 *)
Definition assemble_LDY (bitflag : Z) : Z :=
  switch bitflag
    [(ADDR_MODE_IMMEDIATE, 0xa0);
     (ADDR_MODE_ZERO_PAGE, 0xa4);
     (ADDR_MODE_ZERO_PAGE_X, 0xb4);
     (ADDR_MODE_ABSOLUTE, 0xac);
     (ADDR_MODE_ABSOLUTE_X, 0xbc)]
    ERROR_ILLEGAL_ADDRESSING_MODE.
(** src/assemble.c:329-339 *)
Definition assemble_LSR (bitflag : Z) : Z :=
  switch bitflag
    [(ADDR_MODE_ACCUMULATOR, 0x4a);
     (ADDR_MODE_ZERO_PAGE, 0x46);
     (ADDR_MODE_ZERO_PAGE_X, 0x56);
     (ADDR_MODE_ABSOLUTE, 0x4e);
     (ADDR_MODE_ABSOLUTE_X, 0x5e)]
    ERROR_ILLEGAL_ADDRESSING_MODE.
(** src/assemble.c:341-347 *)
Definition assemble_NOP (bitflag : Z) : Z :=
  switch bitflag
    [(ADDR_MODE_IMPLIED, 0xea)]
    ERROR_ILLEGAL_ADDRESSING_MODE.
(** src/assemble.c:349-362 *)
Definition assemble_ORA (bitflag : Z) : Z :=
  switch bitflag
    [(ADDR_MODE_IMMEDIATE, 0x9);
     (ADDR_MODE_ZERO_PAGE, 0x5);
     (ADDR_MODE_ZERO_PAGE_X, 0x15);
     (ADDR_MODE_ABSOLUTE, 0xd);
     (ADDR_MODE_ABSOLUTE_X, 0x1d);
     (ADDR_MODE_ABSOLUTE_Y, 0x19);
     (ADDR_MODE_X_INDEXED_INDIRECT, 0x1);
     (ADDR_MODE_INDIRECT_Y_INDEXED, 0x11)]
    ERROR_ILLEGAL_ADDRESSING_MODE.
(** src/assemble.c:364-370 *)
Definition assemble_PHA (bitflag : Z) : Z :=
  switch bitflag
    [(ADDR_MODE_IMPLIED, 0x48)]
    ERROR_ILLEGAL_ADDRESSING_MODE.
(** src/assemble.c:372-378 *)
Definition assemble_PHP (bitflag : Z) : Z :=
  switch bitflag
    [(ADDR_MODE_IMPLIED, 0x8)]
    ERROR_ILLEGAL_ADDRESSING_MODE.
(** src/assemble.c:380-386 *)
Definition assemble_PLA (bitflag : Z) : Z :=
  switch bitflag
    [(ADDR_MODE_IMPLIED, 0x68)]
    ERROR_ILLEGAL_ADDRESSING_MODE.
(** src/assemble.c:388-394 *)
Definition assemble_PLP (bitflag : Z) : Z :=
  switch bitflag
    [(ADDR_MODE_IMPLIED, 0x28)]
    ERROR_ILLEGAL_ADDRESSING_MODE.
(** src/assemble.c:396-406 *)
Definition assemble_ROL (bitflag : Z) : Z :=
  switch bitflag
    [(ADDR_MODE_ACCUMULATOR, 0x2a);
     (ADDR_MODE_ZERO_PAGE, 0x26);
     (ADDR_MODE_ZERO_PAGE_X, 0x36);
     (ADDR_MODE_ABSOLUTE, 0x2e);
     (ADDR_MODE_ABSOLUTE_X, 0x3e)]
    ERROR_ILLEGAL_ADDRESSING_MODE.
(** src/assemble.c:408-418 *)
Definition assemble_ROR (bitflag : Z) : Z :=
  switch bitflag
    [(ADDR_MODE_ACCUMULATOR, 0x6a);
     (ADDR_MODE_ZERO_PAGE, 0x66);
     (ADDR_MODE_ZERO_PAGE_X, 0x76);
     (ADDR_MODE_ABSOLUTE, 0x6e);
     (ADDR_MODE_ABSOLUTE_X, 0x7e)]
    ERROR_ILLEGAL_ADDRESSING_MODE.
(** src/assemble.c:420-426 *)
Definition assemble_RTI (bitflag : Z) : Z :=
  switch bitflag
    [(ADDR_MODE_IMPLIED, 0x40)]
    ERROR_ILLEGAL_ADDRESSING_MODE.
(** src/assemble.c:428-434 *)
Definition assemble_RTS (bitflag : Z) : Z :=
  switch bitflag
    [(ADDR_MODE_IMPLIED, 0x60)]
    ERROR_ILLEGAL_ADDRESSING_MODE.
(** src/assemble.c:436-449 *)
Definition assemble_SBC (bitflag : Z) : Z :=
  switch bitflag
    [(ADDR_MODE_IMMEDIATE, 0xe9);
     (ADDR_MODE_ZERO_PAGE, 0xe5);
     (ADDR_MODE_ZERO_PAGE_X, 0xf5);
     (ADDR_MODE_ABSOLUTE, 0xed);
     (ADDR_MODE_ABSOLUTE_X, 0xfd);
     (ADDR_MODE_ABSOLUTE_Y, 0xf9);
     (ADDR_MODE_X_INDEXED_INDIRECT, 0xe1);
     (ADDR_MODE_INDIRECT_Y_INDEXED, 0xf1)]
    ERROR_ILLEGAL_ADDRESSING_MODE.
(** src/assemble.c:451-457 *)
Definition assemble_SEC (bitflag : Z) : Z :=
  switch bitflag
    [(ADDR_MODE_IMPLIED, 0x38)]
    ERROR_ILLEGAL_ADDRESSING_MODE.
(** src/assemble.c:459-465 *)
Definition assemble_SED (bitflag : Z) : Z :=
  switch bitflag
    [(ADDR_MODE_IMPLIED, 0xf8)]
    ERROR_ILLEGAL_ADDRESSING_MODE.
(** src/assemble.c:467-473 *)
Definition assemble_SEI (bitflag : Z) : Z :=
  switch bitflag
    [(ADDR_MODE_IMPLIED, 0x78)]
    ERROR_ILLEGAL_ADDRESSING_MODE.
(** src/assemble.c:475-487 *)
Definition assemble_STA (bitflag : Z) : Z :=
  switch bitflag
    [(ADDR_MODE_ZERO_PAGE, 0x85);
     (ADDR_MODE_ZERO_PAGE_X, 0x95);
     (ADDR_MODE_ABSOLUTE, 0x8d);
     (ADDR_MODE_ABSOLUTE_X, 0x9d);
     (ADDR_MODE_ABSOLUTE_Y, 0x99);
     (ADDR_MODE_X_INDEXED_INDIRECT, 0x81);
     (ADDR_MODE_INDIRECT_Y_INDEXED, 0x91)]
    ERROR_ILLEGAL_ADDRESSING_MODE.
(** src/assemble.c:489-497 *)
Definition assemble_STX (bitflag : Z) : Z :=
  switch bitflag
    [(ADDR_MODE_ZERO_PAGE, 0x86);
     (ADDR_MODE_ZERO_PAGE_Y, 0x96);
     (ADDR_MODE_ABSOLUTE, 0x8e)]
    ERROR_ILLEGAL_ADDRESSING_MODE.
(** src/assemble.c:499-507 *)
Definition assemble_STY (bitflag : Z) : Z :=
  switch bitflag
    [(ADDR_MODE_ZERO_PAGE, 0x84);
     (ADDR_MODE_ZERO_PAGE_X, 0x94);
     (ADDR_MODE_ABSOLUTE, 0x8c)]
    ERROR_ILLEGAL_ADDRESSING_MODE.
(** src/assemble.c:509-515 *)
Definition assemble_TAX (bitflag : Z) : Z :=
  switch bitflag
    [(ADDR_MODE_IMPLIED, 0xaa)]
    ERROR_ILLEGAL_ADDRESSING_MODE.
(** src/assemble.c:517-523 *)
Definition assemble_TAY (bitflag : Z) : Z :=
  switch bitflag
    [(ADDR_MODE_IMPLIED, 0xa8)]
    ERROR_ILLEGAL_ADDRESSING_MODE.
(** src/assemble.c:525-531 *)
Definition assemble_TSX (bitflag : Z) : Z :=
  switch bitflag
    [(ADDR_MODE_IMPLIED, 0xba)]
    ERROR_ILLEGAL_ADDRESSING_MODE.
(** src/assemble.c:533-539 *)
Definition assemble_TXA (bitflag : Z) : Z :=
  switch bitflag
    [(ADDR_MODE_IMPLIED, 0x8a)]
    ERROR_ILLEGAL_ADDRESSING_MODE.
(** src/assemble.c:541-547 *)
Definition assemble_TXS (bitflag : Z) : Z :=
  switch bitflag
    [(ADDR_MODE_IMPLIED, 0x9a)]
    ERROR_ILLEGAL_ADDRESSING_MODE.
(** src/assemble.c:549-555 *)
Definition assemble_TYA (bitflag : Z) : Z :=
  switch bitflag
    [(ADDR_MODE_IMPLIED, 0x98)]
    ERROR_ILLEGAL_ADDRESSING_MODE.

(** src/opcode.c:256-317 get_opcode *)
Definition get_opcode (i : Instruction) : Z :=
  match i_mnemonic i with
  | ADC => assemble_ADC (i_bitflag i)
  | AND => assemble_AND (i_bitflag i)
  | ASL => assemble_ASL (i_bitflag i)
  | BCC => assemble_BCC (i_bitflag i)
  | BCS => assemble_BCS (i_bitflag i)
  | BEQ => assemble_BEQ (i_bitflag i)
  | BIT => assemble_BIT (i_bitflag i)
  | BMI => assemble_BMI (i_bitflag i)
  | BNE => assemble_BNE (i_bitflag i)
  | BPL => assemble_BPL (i_bitflag i)
  | BRK => assemble_BRK (i_bitflag i)
  | BVC => assemble_BVC (i_bitflag i)
  | BVS => assemble_BVS (i_bitflag i)
  | CLC => assemble_CLC (i_bitflag i)
  | CLD => assemble_CLD (i_bitflag i)
  | CLI => assemble_CLI (i_bitflag i)
  | CLV => assemble_CLV (i_bitflag i)
  | CMP => assemble_CMP (i_bitflag i)
  | CPX => assemble_CPX (i_bitflag i)
  | CPY => assemble_CPY (i_bitflag i)
  | DEC => assemble_DEC (i_bitflag i)
  | DEX => assemble_DEX (i_bitflag i)
  | DEY => assemble_DEY (i_bitflag i)
  | EOR => assemble_EOR (i_bitflag i)
  | INC => assemble_INC (i_bitflag i)
  | INX => assemble_INX (i_bitflag i)
  | INY => assemble_INY (i_bitflag i)
  | JMP => assemble_JMP (i_bitflag i)
  | JSR => assemble_JSR (i_bitflag i)
  | LDA => assemble_LDA (i_bitflag i)
  | LDX => assemble_LDX (i_bitflag i)
  | LDY => assemble_LDY (i_bitflag i)
  | LSR => assemble_LSR (i_bitflag i)
  | NOP => assemble_NOP (i_bitflag i)
  | ORA => assemble_ORA (i_bitflag i)
  | PHA => assemble_PHA (i_bitflag i)
  | PHP => assemble_PHP (i_bitflag i)
  | PLA => assemble_PLA (i_bitflag i)
  | PLP => assemble_PLP (i_bitflag i)
  | ROL => assemble_ROL (i_bitflag i)
  | ROR => assemble_ROR (i_bitflag i)
  | RTI => assemble_RTI (i_bitflag i)
  | RTS => assemble_RTS (i_bitflag i)
  | SBC => assemble_SBC (i_bitflag i)
  | SEC => assemble_SEC (i_bitflag i)
  | SED => assemble_SED (i_bitflag i)
  | SEI => assemble_SEI (i_bitflag i)
  | STA => assemble_STA (i_bitflag i)
  | STX => assemble_STX (i_bitflag i)
  | STY => assemble_STY (i_bitflag i)
  | TAX => assemble_TAX (i_bitflag i)
  | TAY => assemble_TAY (i_bitflag i)
  | TSX => assemble_TSX (i_bitflag i)
  | TXA => assemble_TXA (i_bitflag i)
  | TXS => assemble_TXS (i_bitflag i)
  | TYA => assemble_TYA (i_bitflag i)
  | _ => ERROR_ILLEGAL_MNEMONIC
  end.
