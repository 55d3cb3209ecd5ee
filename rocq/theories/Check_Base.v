(** Check_Base.v -- vocabulary of the generated file Check_Tests.v, which runs the unit tests of the
    program (/repo/tests) on the model.  Nothing here is used by a theorem. *)
From Verif Require Import Base Model_Opcode Model_Error Model_Lexer Model_Generator.

(** a C string literal: the escape sequences used in the tests *)
Fixpoint c_text (s : text) : text :=
  match s with
  | "\"%char :: c :: s' =>
    if Ascii.eqb c "x"%char then
      match s' with _ :: _ :: s'' => chr 255 :: c_text s'' | _ => [] end  (* only \xff occurs *)
    else (if Ascii.eqb c "t"%char then ch_tab else if Ascii.eqb c "n"%char then ch_nl
          else if Ascii.eqb c "r"%char then ch_cr else c) :: c_text s'
  | c :: s' => c :: c_text s'
  | [] => []
  end.
Definition C (s : string) : text := c_text (T s).

(** an assertion of line [line] *)
Definition chk (line : Z) (ok : bool) (bad : list Z) : list Z := if ok then bad else line :: bad.

(** a pointer that must not be NULL *)
Definition some {A : Type} (o : option A) : M A := match o with Some a => Ret a | None => Undef UbNull end.
Definition is_some {A : Type} (o : option A) : bool := match o with Some _ => true | None => false end.
(** the token an operand pointer points to *)
Definition token_of (lexer : Lexer) (operand : option Z) : M (option Token) :=
  match operand with
  | None => Ret None
  | Some i => t <- get (lx_seq lexer) i ;; Ret (Some t)
  end.

(** equalities *)
Definition mn_eq_dec (a b : Mnemonic) : {a = b} + {a <> b}.
Proof. decide equality. Defined.
Definition mn_eqb (a b : Mnemonic) : bool := if mn_eq_dec a b then true else false.
Definition opt_eqb {A : Type} (eqb : A -> A -> bool) (a b : option A) : bool :=
  match a, b with Some x, Some y => eqb x y | None, None => true | _, _ => false end.
Definition opt_z_eqb : option Z -> option Z -> bool := opt_eqb Z.eqb.
Definition opt_n_eqb : option nat -> option nat -> bool := opt_eqb Nat.eqb.
Definition opt_text_eqb : option text -> option text -> bool := opt_eqb text_eqb.
Fixpoint list_z_eqb (a b : list Z) : bool :=
  match a, b with [], [] => true | x :: a', y :: b' => Z.eqb x y && list_z_eqb a' b' | _, _ => false end.

(** assignments to the members of struct Instruction *)
Definition set_mnemonic (i : Instruction) (m : Mnemonic) : Instruction :=
  mkInstr m (i_bitfield i) (i_bitflag i) (i_opcode i).
Definition set_addr_bitfield (i : Instruction) (v : Z) : Instruction :=
  mkInstr (i_mnemonic i) v (i_bitflag i) (i_opcode i).
Definition set_addr_bitflag (i : Instruction) (v : Z) : Instruction :=
  mkInstr (i_mnemonic i) (i_bitfield i) v (i_opcode i).

(** what fread reads of the output file: the bytes from the current position on *)
Definition from_here (f : OFile) : list Z := skipn (Z.to_nat (of_pos f)) (of_data f).
