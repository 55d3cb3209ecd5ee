(** Model_Error.v -- model of src/error.c (print_error). *)
From Coq Require Import DecimalString HexadecimalString.
From Verif Require Import Base Model_Opcode.

(** printf "%d" / "%i" (src/error.c:37, src/main.c:280-281; C library) *)
Definition fmt_d (n : Z) : text := T (DecimalString.NilZero.string_of_int (Z.to_int n)).

(** printf "%04x" of a non-negative value (src/main.c:280; C library) *)
Definition fmt_04x (n : Z) : text :=
  let h := T (HexadecimalString.NilZero.string_of_uint (N.to_hex_uint (Z.to_N n))) in
  repeat "0"%char (4 - List.length h) ++ h.

(** src/error.c:39-95: the text printed for each code; [None] is the [default]
    case, which returns from print_error *)
Definition error_message (error_code : Z) (file_name : text) : option text :=
  let line s := Some (T s ++ [ch_nl]) in
  if error_code =? ERROR_MEMORY_ALLOCATION_FAIL then
    line "ERROR: could not allocate enough memory during assembly"%string
  else if error_code =? ERROR_ILLEGAL_CHAR then line "ERROR: illegal character"%string
  else if error_code =? ERROR_TOO_BIG_LITERAL then
    line "ERROR: value of literal exceeds 2 bytes"%string
  else if error_code =? ERROR_TOO_LONG_LABEL then
    line "ERROR: label exceeds 63 characters"%string
  else if error_code =? ERROR_TOO_MANY_TOKENS then line "ERROR: illegal sequence"%string
  else if error_code =? ERROR_UNKNOWN then
    line "ERROR: unknown error while assembling"%string
  else if error_code =? ERROR_ILLEGAL_SEQUENCE then line "ERROR: illegal syntax"%string
  else if error_code =? ERROR_LABEL_REDEFINITION then
    line "ERROR: no redefinition of labels"%string
  else if error_code =? ERROR_ILLEGAL_FORWARD_REFERENCE then
    line "ERROR: illegal forward reference"%string
  else if error_code =? ERROR_ILLEGAL_ADDRESSING_MODE then
    line "ERROR: illegal addressing mode"%string
  else if error_code =? ERROR_TOO_BIG_OFFSET then
    line "ERROR: branch offset too far away"%string
  else if error_code =? ERROR_FILE_OPEN_FAIL then
    Some (T "ERROR: " ++ file_name ++ T " could not be opened" ++ [ch_nl])
  else if error_code =? ERROR_BINARY_FILE_CREATION_FAIL then
    line "ERROR: assembled binary file could not be created"%string
  else if error_code =? ERROR_MISSING_LABEL_DEFINITION then
    line "ERROR: label definition was not found"%string
  else if error_code =? ERROR_ILLEGAL_DIRECTIVE then
    line "ERROR: illegal assembler directive"%string
  else if error_code =? ERROR_ILLEGAL_BASE then line "ERROR: illegal base"%string
  else None.

(** src/error.c:103: the characters skipped at the end of the line *)
Definition is_trailing (c : ascii) : bool :=
  Ascii.eqb c ch_sp || Ascii.eqb c ch_tab || Ascii.eqb c ch_nl || (schar c =? EOF).

(** the loop of src/error.c:103 and src/forward_reference.c:114: drop the characters satisfying [p] at the front *)
Fixpoint drop_while (p : ascii -> bool) (s : text) : text :=
  match s with
  | [] => []
  | c :: s' => if p c then drop_while p s' else s
  end.

(** src/error.c:102-106: [end] starts on the last character and moves left while
    it is on a blank; moving before the first character is undefined *)
Definition strip_trailing (line : text) : M text :=
  match drop_while is_trailing (rev line) with
  | [] => Undef UbUnderrun
  | r => Ret (rev r)
  end.

(** src/error.c:114-127: one turn of the loop that counts the blanks before the
    arrow; the state is (num_spaces, tab_align) *)
Definition arrow_step (st : nat * nat) (c : ascii) : nat * nat :=
  let '(num_spaces, tab_align0) := st in
  let tab_align := if Nat.eqb tab_align0 8 then 0%nat else tab_align0 in
  if Ascii.eqb c ch_tab then ((num_spaces + (8 - tab_align))%nat, 0%nat)
  else (S num_spaces, S tab_align).

(** src/error.c:110-127: the number of blanks before the arrow *)
Definition arrow_spaces (before : text) : nat := fst (fold_left arrow_step before (0%nat, 0%nat)).

(** src/error.c:33-130 print_error: the text written on stdout.  [line = None] is
    a NULL line; [bad_char] is an offset in the line. *)
Definition print_error (line : option text) (error_code : Z) (bad_char : option nat)
    (file_name : text) (line_num : Z) : M text :=
  let prefix := match line with
                | Some _ => file_name ++ T ":" ++ fmt_d line_num ++ T ": "
                | None => []
                end in
  match error_message error_code file_name with
  | None => Ret prefix
  | Some msg =>
    match line with
    | None => Ret (prefix ++ msg ++ [ch_nl])
    | Some l =>
      shown <- strip_trailing l ;;
      match bad_char with
      | None => Ret (prefix ++ msg ++ shown ++ [ch_nl] ++ [ch_nl])
      | Some b =>
        if Nat.ltb (List.length l) b then Undef UbUnderrun
        else Ret (prefix ++ msg ++ shown ++ [ch_nl] ++
                  repeat ch_sp (arrow_spaces (firstn b l)) ++ T "^~~~~~" ++ [ch_nl; ch_nl])
      end
    end
  end.
