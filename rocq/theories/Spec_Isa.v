(** Spec_Isa.v -- specification side: the 6502 instruction set.  Nothing here comes
    from the C code: the table is the transcription of opcodes/6502ops.csv, the
    instruction list the project cites as its reference. *)
From Verif Require Import Base.

(** addressing modes, with the names of the CSV file *)
Inductive mode :=
| IMM | ZP | ZPX | ZPY | ABS | ABSX | ABSY | IND | INDX | INDY | ACC | IMP | REL.

(** opcodes/6502ops.csv: mnemonic, addressing mode, opcode, bytes *)
Definition table : list (string * mode * Z * Z) := [
  ("ADC"%string, IMM, 0x69, 2);
  ("ADC"%string, ZP, 0x65, 2);
  ("ADC"%string, ZPX, 0x75, 2);
  ("ADC"%string, ABS, 0x6d, 3);
  ("ADC"%string, ABSX, 0x7d, 3);
  ("ADC"%string, ABSY, 0x79, 3);
  ("ADC"%string, INDX, 0x61, 2);
  ("ADC"%string, INDY, 0x71, 2);
  ("AND"%string, IMM, 0x29, 2);
  ("AND"%string, ZP, 0x25, 2);
  ("AND"%string, ZPX, 0x35, 2);
  ("AND"%string, ABS, 0x2d, 3);
  ("AND"%string, ABSX, 0x3d, 3);
  ("AND"%string, ABSY, 0x39, 3);
  ("AND"%string, INDX, 0x21, 2);
  ("AND"%string, INDY, 0x31, 2);
  ("ASL"%string, ACC, 0x0a, 1);
  ("ASL"%string, ZP, 0x06, 2);
  ("ASL"%string, ZPX, 0x16, 2);
  ("ASL"%string, ABS, 0x0e, 3);
  ("ASL"%string, ABSX, 0x1e, 3);
  ("BCC"%string, REL, 0x90, 2);
  ("BCS"%string, REL, 0xB0, 2);
  ("BEQ"%string, REL, 0xF0, 2);
  ("BMI"%string, REL, 0x30, 2);
  ("BNE"%string, REL, 0xD0, 2);
  ("BPL"%string, REL, 0x10, 2);
  ("BVC"%string, REL, 0x50, 2);
  ("BVS"%string, REL, 0x70, 2);
  ("BIT"%string, ZP, 0x24, 2);
  ("BIT"%string, ABS, 0x2c, 3);
  ("BRK"%string, IMP, 0x00, 1);
  ("CLC"%string, IMP, 0x18, 1);
  ("CLD"%string, IMP, 0xd8, 1);
  ("CLI"%string, IMP, 0x58, 1);
  ("CLV"%string, IMP, 0xb8, 1);
  ("NOP"%string, IMP, 0xea, 1);
  ("PHA"%string, IMP, 0x48, 1);
  ("PLA"%string, IMP, 0x68, 1);
  ("PHP"%string, IMP, 0x08, 1);
  ("PLP"%string, IMP, 0x28, 1);
  ("RTI"%string, IMP, 0x40, 1);
  ("RTS"%string, IMP, 0x60, 1);
  ("SEC"%string, IMP, 0x38, 1);
  ("SED"%string, IMP, 0xf8, 1);
  ("SEI"%string, IMP, 0x78, 1);
  ("TAX"%string, IMP, 0xaa, 1);
  ("TXA"%string, IMP, 0x8a, 1);
  ("TAY"%string, IMP, 0xa8, 1);
  ("TYA"%string, IMP, 0x98, 1);
  ("TSX"%string, IMP, 0xba, 1);
  ("TXS"%string, IMP, 0x9a, 1);
  ("CMP"%string, IMM, 0xc9, 2);
  ("CMP"%string, ZP, 0xc5, 2);
  ("CMP"%string, ZPX, 0xd5, 2);
  ("CMP"%string, ABS, 0xcd, 3);
  ("CMP"%string, ABSX, 0xdd, 3);
  ("CMP"%string, ABSY, 0xd9, 3);
  ("CMP"%string, INDX, 0xc1, 2);
  ("CMP"%string, INDY, 0xd1, 2);
  ("CPX"%string, IMM, 0xe0, 2);
  ("CPX"%string, ZP, 0xe4, 2);
  ("CPX"%string, ABS, 0xec, 3);
  ("CPY"%string, IMM, 0xc0, 2);
  ("CPY"%string, ZP, 0xc4, 2);
  ("CPY"%string, ABS, 0xcc, 3);
  ("DEC"%string, ZP, 0xc6, 2);
  ("DEC"%string, ZPX, 0xd6, 2);
  ("DEC"%string, ABS, 0xce, 3);
  ("DEC"%string, ABSX, 0xde, 3);
  ("DEX"%string, IMP, 0xca, 1);
  ("DEY"%string, IMP, 0x88, 1);
  ("INX"%string, IMP, 0xe8, 1);
  ("INY"%string, IMP, 0xc8, 1);
  ("EOR"%string, IMM, 0x49, 2);
  ("EOR"%string, ZP, 0x45, 2);
  ("EOR"%string, ZPX, 0x55, 2);
  ("EOR"%string, ABS, 0x4d, 3);
  ("EOR"%string, ABSX, 0x5d, 3);
  ("EOR"%string, ABSY, 0x59, 3);
  ("EOR"%string, INDX, 0x41, 2);
  ("EOR"%string, INDY, 0x51, 2);
  ("INC"%string, ZP, 0xe6, 2);
  ("INC"%string, ZPX, 0xf6, 2);
  ("INC"%string, ABS, 0xee, 3);
  ("INC"%string, ABSX, 0xfe, 3);
  ("JMP"%string, ABS, 0x4c, 3);
  ("JMP"%string, IND, 0x6c, 3);
  ("JSR"%string, ABS, 0x20, 3);
  ("LDA"%string, IMM, 0xa9, 2);
  ("LDA"%string, ZP, 0xa5, 2);
  ("LDA"%string, ZPX, 0xb5, 2);
  ("LDA"%string, ABS, 0xad, 3);
  ("LDA"%string, ABSX, 0xbd, 3);
  ("LDA"%string, ABSY, 0xb9, 3);
  ("LDA"%string, INDX, 0xa1, 2);
  ("LDA"%string, INDY, 0xb1, 2);
  ("LDX"%string, IMM, 0xa2, 2);
  ("LDX"%string, ZP, 0xa6, 2);
  ("LDX"%string, ZPY, 0xb6, 2);
  ("LDX"%string, ABS, 0xae, 3);
  ("LDX"%string, ABSY, 0xbe, 3);
  ("LDY"%string, IMM, 0xa0, 2);
  ("LDY"%string, ZP, 0xa4, 2);
  ("LDY"%string, ZPX, 0xb4, 2);
  ("LDY"%string, ABS, 0xac, 3);
  ("LDY"%string, ABSX, 0xbc, 3);
  ("LSR"%string, ACC, 0x4a, 1);
  ("LSR"%string, ZP, 0x46, 2);
  ("LSR"%string, ZPX, 0x56, 2);
  ("LSR"%string, ABS, 0x4e, 3);
  ("LSR"%string, ABSX, 0x5e, 3);
  ("ORA"%string, IMM, 0x09, 2);
  ("ORA"%string, ZP, 0x05, 2);
  ("ORA"%string, ZPX, 0x15, 2);
  ("ORA"%string, ABS, 0x0d, 3);
  ("ORA"%string, ABSX, 0x1d, 3);
  ("ORA"%string, ABSY, 0x19, 3);
  ("ORA"%string, INDX, 0x01, 2);
  ("ORA"%string, INDY, 0x11, 2);
  ("ROL"%string, ACC, 0x2a, 1);
  ("ROL"%string, ZP, 0x26, 2);
  ("ROL"%string, ZPX, 0x36, 2);
  ("ROL"%string, ABS, 0x2e, 3);
  ("ROL"%string, ABSX, 0x3e, 3);
  ("ROR"%string, ACC, 0x6a, 1);
  ("ROR"%string, ZP, 0x66, 2);
  ("ROR"%string, ZPX, 0x76, 2);
  ("ROR"%string, ABS, 0x6e, 3);
  ("ROR"%string, ABSX, 0x7e, 3);
  ("SBC"%string, IMM, 0xe9, 2);
  ("SBC"%string, ZP, 0xe5, 2);
  ("SBC"%string, ZPX, 0xf5, 2);
  ("SBC"%string, ABS, 0xed, 3);
  ("SBC"%string, ABSX, 0xfd, 3);
  ("SBC"%string, ABSY, 0xf9, 3);
  ("SBC"%string, INDX, 0xe1, 2);
  ("SBC"%string, INDY, 0xf1, 2);
  ("STA"%string, ZP, 0x85, 2);
  ("STA"%string, ZPX, 0x95, 2);
  ("STA"%string, ABS, 0x8d, 3);
  ("STA"%string, ABSX, 0x9d, 3);
  ("STA"%string, ABSY, 0x99, 3);
  ("STA"%string, INDX, 0x81, 2);
  ("STA"%string, INDY, 0x91, 2);
  ("STX"%string, ZP, 0x86, 2);
  ("STX"%string, ZPY, 0x96, 2);
  ("STX"%string, ABS, 0x8e, 3);
  ("STY"%string, ZP, 0x84, 2);
  ("STY"%string, ZPX, 0x94, 2);
  ("STY"%string, ABS, 0x8c, 3)
].

Definition mode_eqb (a b : mode) : bool :=
  match a, b with
  | IMM, IMM | ZP, ZP | ZPX, ZPX | ZPY, ZPY | ABS, ABS | ABSX, ABSX | ABSY, ABSY
  | IND, IND | INDX, INDX | INDY, INDY | ACC, ACC | IMP, IMP | REL, REL => true
  | _, _ => false
  end.

(** the opcode and the size listed for a mnemonic in a mode *)
Definition listed (name : string) (md : mode) : option (Z * Z) :=
  match find (fun '(n, d, _, _) => String.eqb n name && mode_eqb d md) table with
  | Some (_, _, op, bytes) => Some (op, bytes)
  | None => None
  end.

(** [op] is the documented opcode of [name] in mode [md] *)
Definition documented (name : string) (md : mode) (op : Z) : Prop :=
  exists bytes, In (name, md, op, bytes) table.

(** the modes a mnemonic has *)
Definition has_mode (name : string) (md : mode) : Prop := exists op, documented name md op.

(** the documented mnemonics: those of the table *)
Definition is_name (name : string) : Prop := exists md op bytes, In (name, md, op, bytes) table.

(** decoding an opcode byte: the first line of the table with this opcode *)
Definition decode (op : Z) : option (string * mode * Z) :=
  match find (fun '(_, _, o, _) => o =? op) table with
  | Some (n, d, _, bytes) => Some (n, d, bytes)
  | None => None
  end.

(** number of operand bytes of a mode *)
Definition operand_bytes (md : mode) : Z :=
  match md with
  | ACC | IMP => 0
  | ABS | ABSX | ABSY | IND => 2
  | _ => 1
  end.
