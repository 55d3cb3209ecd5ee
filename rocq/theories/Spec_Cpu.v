(** Spec_Cpu.v -- specification side: running code.  A processor fetches the instruction its program counter points at
    and executes it; what an instruction does with its operand is left open ([effect] is arbitrary), so that what is
    said here holds of every processor with the instruction table of Spec_Isa.v: of the 6502, of its variants and of
    any emulator.  Next to it, the same for a source text: the statement at an address is executed, with the operand
    as it is written. *)
From Verif Require Import Base Spec_Isa Spec_Text Spec_Asm Spec_Diag Spec_Prog.

(** a processor: its states (registers, memory, devices, ...); the bytes it reads; what the instruction of a mnemonic
    in a mode with an operand does, given the address of the instruction behind it: the next program counter and
    state, or [None] if it stops *)
Record cpu := mkCpu {
  state : Type;
  memory : state -> Z -> Z;
  effect : string -> mode -> option Z -> Z -> state -> option (Z * state) }.

(** addresses have 16 bits *)
Definition word (x : Z) : Z := x mod 65536.

(** the operand in the bytes behind an opcode: none, a word, the target of a branch, or a byte *)
Definition operand_of (mem : Z -> Z) (pc : Z) (md : mode) : option Z :=
  match md with
  | ACC | IMP => None
  | ABS | ABSX | ABSY | IND => Some (mem (word (pc + 1)) + 256 * mem (word (pc + 2)))
  | REL => Some (word (pc + 2 + signed_byte (mem (word (pc + 1)))))
  | _ => Some (mem (word (pc + 1)))
  end.

(** one instruction is executed *)
Definition cpu_step (c : cpu) (before after : Z * state c) : Prop :=
  let '(pc, s) := before in
  exists m md size, decode (memory c s pc) = Some (m, md, size) /\
    effect c m md (operand_of (memory c s) pc md) (word (pc + size)) s = Some after.

(** the operand an instruction is written with: a label stands for its value; the number behind a branch is the
    distance *)
Definition meant (fin : env) (a : Z) (md : mode) (o : operand) : option (option Z) :=
  match operand_expr o with
  | None => Some None
  | Some x =>
    match eval fin x, md, x with
    | None, _, _ => None
    | Some v, REL, Num _ => Some (Some (word (a + 2 + signed_byte v)))
    | Some v, _, _ => Some (Some (word v))
    end
  end.

(** one statement is executed: the program counter is the address of an instruction of the program *)
Definition source_step (c : cpu) (p : list stmt) (before after : Z * state c) : Prop :=
  let '(pc, s) := before in
  exists k lab m o next e fin md v, nth_error (body p) k = Some (SInstr lab m o) /\
    address AsBuilt p k = Some pc /\ address AsBuilt p (S k) = Some next /\
    labels_at AsBuilt p k = Some e /\ labels AsBuilt p = Some fin /\
    denoted_mode m o (value_of (with_own lab pc e) o) = Some md /\
    meant fin pc md o = Some v /\
    effect c m md v (word next) s = Some after.

(** there is an instruction at this address of the program *)
Definition at_instruction (p : list stmt) (a : Z) : Prop :=
  exists k lab m o, nth_error (body p) k = Some (SInstr lab m o) /\ address AsBuilt p k = Some a.

(** the memory holds the bytes of the file (from address 0 on) wherever there is an instruction; zero bytes in front of
    and between the pieces of code may have been overwritten with data *)
Definition intact (p : list stmt) (mem : Z -> Z) (file : list Z) : Prop :=
  forall k x, spans AsBuilt p k x -> nth_error file (Z.to_nat x) = Some (mem x).

(** [n] steps, through states that satisfy [ok] *)
Inductive steps {A : Type} (step : A -> A -> Prop) (ok : A -> Prop) : nat -> A -> A -> Prop :=
| steps_0 : forall x, steps step ok 0 x x
| steps_S : forall n x y z, ok x -> step x y -> steps step ok n y z -> steps step ok (S n) x z.
