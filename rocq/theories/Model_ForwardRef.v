(** Model_ForwardRef.v -- model of src/forward_reference.c. *)
From Verif Require Import Base Model_Opcode Model_Error Model_Lexer.

Definition FORWARD_REFERENCE_INSERTION_SUCCESS : Z := 1.  (* src/forward_reference.h:14 *)
Definition UNRESOLVED_BASE_SIZE : Z := 8.                 (* src/forward_reference.c:20 *)

(** src/forward_reference.h:16-25 struct ForwardRef; operand_location is an offset
    in source_line *)
Record ForwardRef := mkRef {
  fr_label : text;
  fr_source_line : text;
  fr_instr : Instruction;
  fr_pc : Z;
  fr_line_num : Z;
  fr_operand_status : Z;
  fr_operand_location : nat }.

(** src/forward_reference.h:27-31 struct Unresolved; NULL is [None] *)
Record Unresolved := mkUnres {
  un_refs : list (option ForwardRef);
  un_curr : Z;
  un_size : Z }.

(** src/forward_reference.c:28-43 init_unresolved (allocation succeeded) *)
Definition init_unresolved : Unresolved :=
  mkUnres (repeat None 8) 0 UNRESOLVED_BASE_SIZE.

(** src/forward_reference.c:107-115: from the last character go left over one
    newline and then over blanks; going before the first character is undefined *)
Definition strip_source_line (buffer : text) : M text :=
  let r := rev buffer in
  let r1 := match r with
            | c :: r' => if Ascii.eqb c ch_nl then r' else r
            | [] => []
            end in
  match drop_while is_blank r1 with
  | [] => Undef UbUnderrun
  | r2 => Ret (rev r2)
  end.

(** src/forward_reference.c:98-156 create_forward_ref.  [alloc_ok]: all four
    allocations succeed; [None] is the NULL result.  memcpy of the label and of the
    line are copies. *)
Definition create_forward_ref (alloc_ok : bool) (buffer : text) (instr : Instruction)
    (operand : Token) (operand_status pc line_num : Z) : M (option ForwardRef) :=
  if negb alloc_ok then Ret None
  else
    source_line <- strip_source_line buffer ;;
    match tk_loc operand with
    | None => Undef UbNull
    | Some dist_to_operand =>
      Ret (Some (mkRef (tk_str operand) source_line
                       (mkInstr (i_mnemonic instr) (i_bitfield instr) (i_bitflag instr)
                                (i_opcode instr))
                       pc line_num operand_status dist_to_operand))
    end.

(** src/forward_reference.c:166-179 resize_unresolved (realloc keeps the old
    elements; the new ones are set to NULL).  "2 * unresolved->size" is an int. *)
Definition resize_unresolved (alloc_ok : bool) (u : Unresolved) : M (option Unresolved) :=
  new_size <- int_of (2 * un_size u) ;;
  if negb alloc_ok then Ret None
  else Ret (Some (mkUnres (firstn (Z.to_nat (un_size u)) (un_refs u) ++
                           repeat None (Z.to_nat (un_size u)))
                          (un_curr u) new_size)).

(** src/forward_reference.c:190-200 add_forward_ref *)
Definition add_forward_ref (alloc_ok : bool) (u : Unresolved) (ref : ForwardRef)
  : M (Z * Unresolved) :=
  resized <- (if un_curr u =? un_size u - 1 then resize_unresolved alloc_ok u
              else Ret (Some u)) ;;
  match resized with
  | None => Ret (ERROR_MEMORY_ALLOCATION_FAIL, u)
  | Some u1 =>
    refs <- put (un_refs u1) (un_curr u1) (Some ref) ;;
    curr <- int_of (un_curr u1 + 1) ;;
    Ret (FORWARD_REFERENCE_INSERTION_SUCCESS, mkUnres refs curr (un_size u1))
  end.

(** src/forward_reference.c:66-78 destroy_unresolved: the loop "for (i = 0; refs[i]
    != NULL; i++)", returning the number of references freed; reading past the end
    of the array is undefined *)
Fixpoint destroy_loop (refs : list (option ForwardRef)) (i : nat) : M nat :=
  match refs with
  | [] => Undef UbIndex
  | None :: _ => Ret i
  | Some _ :: rest => destroy_loop rest (S i)
  end.
(** src/forward_reference.c:66-78 destroy_unresolved *)
Definition destroy_unresolved (u : Unresolved) : M nat := destroy_loop (un_refs u) 0.
