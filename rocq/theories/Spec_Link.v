(** Spec_Link.v -- how to read the enumerations and structs of the model in the words
    of the specification.  Only renamings. *)
From Verif Require Import Base Model_Opcode Model_Lexer Spec_Isa Spec_Text.

(** the flag of src/addressing_modes.h:75-87 that stands for each mode *)
Definition flag_of (md : mode) : Z :=
  match md with
  | ACC => ADDR_MODE_ACCUMULATOR
  | IMP => ADDR_MODE_IMPLIED
  | IMM => ADDR_MODE_IMMEDIATE
  | REL => ADDR_MODE_RELATIVE
  | ABS => ADDR_MODE_ABSOLUTE
  | ABSX => ADDR_MODE_ABSOLUTE_X
  | ABSY => ADDR_MODE_ABSOLUTE_Y
  | IND => ADDR_MODE_INDIRECT
  | INDX => ADDR_MODE_X_INDEXED_INDIRECT
  | INDY => ADDR_MODE_INDIRECT_Y_INDEXED
  | ZP => ADDR_MODE_ZERO_PAGE
  | ZPX => ADDR_MODE_ZERO_PAGE_X
  | ZPY => ADDR_MODE_ZERO_PAGE_Y
  end.

(** the name of each mnemonic of the enum of src/opcode.h *)
Definition mnemonic_name (m : Mnemonic) : option string :=
  match m with
  | ADC => Some "ADC"%string
  | AND => Some "AND"%string
  | ASL => Some "ASL"%string
  | BCC => Some "BCC"%string
  | BCS => Some "BCS"%string
  | BEQ => Some "BEQ"%string
  | BIT => Some "BIT"%string
  | BMI => Some "BMI"%string
  | BNE => Some "BNE"%string
  | BPL => Some "BPL"%string
  | BRK => Some "BRK"%string
  | BVC => Some "BVC"%string
  | BVS => Some "BVS"%string
  | CLC => Some "CLC"%string
  | CLD => Some "CLD"%string
  | CLI => Some "CLI"%string
  | CLV => Some "CLV"%string
  | CMP => Some "CMP"%string
  | CPX => Some "CPX"%string
  | CPY => Some "CPY"%string
  | DEC => Some "DEC"%string
  | DEX => Some "DEX"%string
  | DEY => Some "DEY"%string
  | EOR => Some "EOR"%string
  | INC => Some "INC"%string
  | INX => Some "INX"%string
  | INY => Some "INY"%string
  | JMP => Some "JMP"%string
  | JSR => Some "JSR"%string
  | LDA => Some "LDA"%string
  | LDX => Some "LDX"%string
  | LDY => Some "LDY"%string
  | LSR => Some "LSR"%string
  | NOP => Some "NOP"%string
  | ORA => Some "ORA"%string
  | PHA => Some "PHA"%string
  | PHP => Some "PHP"%string
  | PLA => Some "PLA"%string
  | PLP => Some "PLP"%string
  | ROL => Some "ROL"%string
  | ROR => Some "ROR"%string
  | RTI => Some "RTI"%string
  | RTS => Some "RTS"%string
  | SBC => Some "SBC"%string
  | SEC => Some "SEC"%string
  | SED => Some "SED"%string
  | SEI => Some "SEI"%string
  | STA => Some "STA"%string
  | STX => Some "STX"%string
  | STY => Some "STY"%string
  | TAX => Some "TAX"%string
  | TAY => Some "TAY"%string
  | TSX => Some "TSX"%string
  | TXA => Some "TXA"%string
  | TXS => Some "TXS"%string
  | TYA => Some "TYA"%string
  | NUM_MNEMONICS | NULL_MNEMONIC | ILLEGAL_MNEMONIC => None
  end.

(** the token of the specification a struct Token stands for; [None] for the null
    token *)
Definition tok_of (t : Token) : option tok :=
  match tk_type t with
  | TOKEN_LABEL => Some (TLabel (tk_str t))
  | TOKEN_LITERAL => Some (TNumber (tk_value t))
  | TOKEN_INSTRUCTION => Some (TMnemonic (string_of_list_ascii (tk_str t)))
  | TOKEN_IMMEDIATE => Some THash
  | TOKEN_OPEN_PARENTHESIS => Some TOpen
  | TOKEN_CLOSE_PARENTHESIS => Some TClose
  | TOKEN_COMMA => Some TComma
  | TOKEN_EQUAL_SIGN => Some TEqual
  | TOKEN_X_REGISTER => Some TX
  | TOKEN_Y_REGISTER => Some TY
  | TOKEN_BASE => Some TStar
  | TOKEN_EQU_DIRECTIVE => Some (TDirective DEqu)
  | TOKEN_DEFINE_DIRECTIVE => Some (TDirective DDefine)
  | TOKEN_ORG_DIRECTIVE => Some (TDirective DOrg)
  | TOKEN_END_DIRECTIVE => Some (TDirective DEnd)
  | TOKEN_ACCUMULATOR => Some TA
  | TOKEN_NULL => None
  end.
