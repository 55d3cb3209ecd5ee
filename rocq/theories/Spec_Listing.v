(** Spec_Listing.v -- specification side: a disassembler.  It turns machine code into source lines such as
    "LDA $1234,X".  It uses the table of Spec_Isa.v only. *)
From Verif Require Import Base Spec_Isa.

(** a hexadecimal digit, two digits, four digits *)
Definition hex1 (d : Z) : ascii := chr (if d <? 10 then 48 + d else 55 + d).
Definition hex2 (v : Z) : text := [hex1 (v / 16); hex1 (v mod 16)].
Definition hex4 (l h : Z) : text := hex2 h ++ hex2 l.

(** the operand field for the operand bytes [bs] in the mode [md] *)
Definition field (md : mode) (bs : list Z) : option text :=
  match md, bs with
  | IMP, [] => Some []
  | ACC, [] => Some (T " A")
  | IMM, [b] => Some (T " #$" ++ hex2 b)
  | (ZP | REL), [b] => Some (T " $" ++ hex2 b)
  | ZPX, [b] => Some (T " $" ++ hex2 b ++ T ",X")
  | ZPY, [b] => Some (T " $" ++ hex2 b ++ T ",Y")
  | INDX, [b] => Some (T " ($" ++ hex2 b ++ T ",X)")
  | INDY, [b] => Some (T " ($" ++ hex2 b ++ T "),Y")
  | ABS, [l; h] => Some (T " $" ++ hex4 l h)
  | ABSX, [l; h] => Some (T " $" ++ hex4 l h ++ T ",X")
  | ABSY, [l; h] => Some (T " $" ++ hex4 l h ++ T ",Y")
  | IND, [l; h] => Some (T " ($" ++ hex4 l h ++ T ")")
  | _, _ => None
  end.

(** the assembler takes the shorter mode when the operand is below $100, so an absolute operand with a high byte of zero
    cannot be written, except in a jump *)
Definition absolute (md : mode) : bool := match md with ABS | ABSX | ABSY => true | _ => false end.
Definition jump (name : string) : bool := String.eqb name "JMP" || String.eqb name "JSR".
Definition unwritable (name : string) (md : mode) (bs : list Z) : bool :=
  match bs with [_; h] => absolute md && negb (jump name) && (h =? 0) | _ => false end.

Definition isbyte (b : Z) : bool := (0 <=? b) && (b <? 256).

(** the source line of one instruction *)
Definition instruction_line (op : Z) (bs : list Z) : option text :=
  match decode op with
  | Some (name, md, _) => if unwritable name md bs || negb (forallb isbyte bs) then None
                          else option_map (app (T name)) (field md bs)
  | None => None
  end.

Definition cons_line (l : option text) (rest : option (list text)) : option (list text) :=
  match l, rest with Some x, Some y => Some (x :: y) | _, _ => None end.

(** the source lines of machine code; [None] if it has an unknown opcode, a cut instruction, or an unwritable one *)
Fixpoint disassemble (bytes : list Z) : option (list text) :=
  match bytes with
  | [] => Some []
  | op :: rest =>
    match decode op with
    | Some (_, _, 1) => cons_line (instruction_line op []) (disassemble rest)
    | Some (_, _, 2) => match rest with b :: rest' => cons_line (instruction_line op [b]) (disassemble rest') | [] => None end
    | Some (_, _, 3) => match rest with l :: h :: rest' => cons_line (instruction_line op [l; h]) (disassemble rest') | _ => None end
    | _ => None
    end
  end.

Definition example_code : list Z := [0xA9; 0x2A; 0xBD; 0x34; 0x12; 0x0A; 0xB1; 0xFE; 0x20; 0x10; 0x00; 0xD0; 0xF9; 0x6C; 0x00; 0x03; 0x60].
Example disassemble_example : disassemble example_code =
  Some [T "LDA #$2A"; T "LDA $1234,X"; T "ASL A"; T "LDA ($FE),Y"; T "JSR $0010"; T "BNE $F9"; T "JMP ($0300)"; T "RTS"].
Proof. vm_compute. reflexivity. Qed.
