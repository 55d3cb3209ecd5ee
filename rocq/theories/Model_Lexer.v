(** Model_Lexer.v -- model of src/lexer.h and src/lexer.c.

    A pointer into the source line is modelled by its offset ([off]) together with
    the rest of the line from there on ([s]); [*p] is [hdc s], which is NUL when [s]
    is empty.  Functions that modify a struct through a pointer return the new
    value of the struct.  [print_error] output is returned as text. *)
From Verif Require Import Base Model_Opcode Model_Error.

Definition MAX_TOKENS : Z := 8.                 (* src/lexer.h:13 *)
Definition LEXER_SUCCESS : Z := 1.              (* src/lexer.h:16 *)
Definition TOKEN_INSERTION_SUCCESS : Z := 2.    (* src/lexer.h:17 *)
Definition MAX_TOKEN_STR_LEN : nat := 64.       (* src/lexer.c:23 *)

(** src/lexer.h:19-37 *)
Inductive TokenType :=
| TOKEN_LABEL | TOKEN_LITERAL | TOKEN_INSTRUCTION | TOKEN_IMMEDIATE
| TOKEN_OPEN_PARENTHESIS | TOKEN_CLOSE_PARENTHESIS | TOKEN_COMMA | TOKEN_EQUAL_SIGN
| TOKEN_X_REGISTER | TOKEN_Y_REGISTER | TOKEN_BASE | TOKEN_EQU_DIRECTIVE
| TOKEN_DEFINE_DIRECTIVE | TOKEN_ORG_DIRECTIVE | TOKEN_END_DIRECTIVE
| TOKEN_ACCUMULATOR | TOKEN_NULL.

(** == on the enum of src/lexer.h:19-37 *)
Definition TokenType_eq_dec (a b : TokenType) : {a = b} + {a <> b}.
Proof. decide equality. Defined.
(** == on the enum of src/lexer.h:19-37, as a boolean *)
Definition ty_eqb (a b : TokenType) : bool := if TokenType_eq_dec a b then true else false.

(** src/lexer.h:39-45 struct Token; pointers into the line are offsets *)
Record Token := mkTok {
  tk_type : TokenType;
  tk_str : text;
  tk_value : Z;
  tk_error_char : option nat;
  tk_loc : option nat }.      (* buffer_location *)

(** src/lexer.h:47-55 struct Lexer *)
Record Lexer := mkLexer {
  lx_seq : list Token;
  lx_curr : Z;
  lx_error_tk : option Z;     (* index in the sequence *)
  lx_line : option text;
  lx_line_num : Z;
  lx_file : text }.

(** assignments to the members of struct Token (src/lexer.h:39-45): "tk->type = ty" and
    likewise for str, value, error_char, buffer_location *)
Definition tk_set_type (t : Token) (ty : TokenType) : Token :=
  mkTok ty (tk_str t) (tk_value t) (tk_error_char t) (tk_loc t).
(** "tk->str = s", src/lexer.h:39-45 *)
Definition tk_set_str (t : Token) (s : text) : Token :=
  mkTok (tk_type t) s (tk_value t) (tk_error_char t) (tk_loc t).
(** "tk->value = v", src/lexer.h:39-45 *)
Definition tk_set_value (t : Token) (v : Z) : Token :=
  mkTok (tk_type t) (tk_str t) v (tk_error_char t) (tk_loc t).
(** "tk->error_char = p", src/lexer.h:39-45 *)
Definition tk_set_error (t : Token) (o : nat) : Token :=
  mkTok (tk_type t) (tk_str t) (tk_value t) (Some o) (tk_loc t).
(** "tk->buffer_location = p", src/lexer.h:39-45 *)
Definition tk_set_loc (t : Token) (o : nat) : Token :=
  mkTok (tk_type t) (tk_str t) (tk_value t) (tk_error_char t) (Some o).

(** assignments to the members of struct Lexer (src/lexer.h:47-55): the tokens of the
    sequence; error_tk *)
Definition lx_set_seq (l : Lexer) (seq : list Token) : Lexer :=
  mkLexer seq (lx_curr l) (lx_error_tk l) (lx_line l) (lx_line_num l) (lx_file l).
(** "lexer->error_tk = lexer->sequence[i]", src/lexer.h:47-55 *)
Definition lx_set_error_tk (l : Lexer) (i : Z) : Lexer :=
  mkLexer (lx_seq l) (lx_curr l) (Some i) (lx_line l) (lx_line_num l) (lx_file l).

(** src/lexer.c:31-45 init_token (allocation succeeded) *)
Definition init_token : Token := mkTok TOKEN_NULL [] 0 None None.

(** src/lexer.c:54-67 init_sequence, 76-91 init_lexer (allocation succeeded;
    [line_num] is left uninitialised by the code and set by lex_line before use) *)
Definition init_lexer (file_name : text) : Lexer :=
  mkLexer (repeat init_token 8) 0 None None (-1) file_name.

(** src/lexer.c:93-101 reset_token *)
Definition reset_token (t : Token) : Token := mkTok TOKEN_NULL [] 0 None None.

(** src/lexer.c:109-118 reset_lexer *)
Definition reset_lexer (l : Lexer) : Lexer :=
  mkLexer (map reset_token (lx_seq l)) 0 None None (-1) (lx_file l).

(** src/lexer.c:170-180 token_strcpy: nothing happens for an empty string; the
    copy includes the NUL and must fit in the 64 bytes of the target *)
Definition token_strcpy (t : Token) (str : text) : M Token :=
  match str with
  | [] => Ret t
  | _ => if Nat.ltb (List.length str) MAX_TOKEN_STR_LEN then Ret (tk_set_str t str)
         else Undef UbTokenStr
  end.

(** src/lexer.c:200-208 token_strncpy: copy [length] characters in upper case and
    a NUL *)
Definition token_strncpy (t : Token) (buffer : text) (length : nat) : M Token :=
  let chars := firstn length buffer in
  if negb (Nat.ltb length MAX_TOKEN_STR_LEN) then Undef UbTokenStr
  else if Nat.ltb (List.length buffer) length then Undef UbUnderrun
  else if negb (forallb ctype_ok chars) then Undef UbCtype
  else Ret (tk_set_str t (map toupper chars)).

(** src/lexer.c:220-241 add_token *)
Definition add_token (lexer : Lexer) (tk : Token) : M (Z * Lexer * text) :=
  if lx_curr lexer =? MAX_TOKENS then Ret (ERROR_TOO_MANY_TOKENS, lexer, [])
  else
    new <- get (lx_seq lexer) (lx_curr lexer) ;;
    if ty_eqb (tk_type new) TOKEN_NULL then
      new1 <- token_strcpy (tk_set_type new (tk_type tk)) (tk_str tk) ;;
      let new2 := mkTok (tk_type new1) (tk_str new1) (tk_value tk)
                        (tk_error_char new1) (tk_loc tk) in
      seq <- put (lx_seq lexer) (lx_curr lexer) new2 ;;
      Ret (TOKEN_INSERTION_SUCCESS,
           mkLexer seq (lx_curr lexer + 1) (lx_error_tk lexer) (lx_line lexer)
                   (lx_line_num lexer) (lx_file lexer), [])
    else
      out <- print_error (lx_line lexer) ERROR_UNKNOWN None (lx_file lexer)
                         (lx_line_num lexer) ;;
      Ret (ERROR_UNKNOWN, lexer, out).

(** src/lexer.c:250-259 hex_digit_to_int *)
Definition hex_digit_to_int (c : ascii) : Z :=
  if in_range 65 (schar c) 70 then schar c - 65 + 10          (* 'A'..'F' *)
  else if in_range 97 (schar c) 102 then schar c - 97 + 10    (* 'a'..'f' *)
  else if in_range 48 (schar c) 57 then schar c - 48          (* '0'..'9' *)
  else ERROR_ILLEGAL_CHAR.

(** src/lexer.c:268-275 bin_digit_to_int *)
Definition bin_digit_to_int (c : ascii) : Z :=
  if Ascii.eqb c "0"%char then 0 else if Ascii.eqb c "1"%char then 1
  else ERROR_ILLEGAL_CHAR.

(** src/lexer.c:284-289 dec_digit_to_int *)
Definition dec_digit_to_int (c : ascii) : Z :=
  if in_range 48 (schar c) 57 then schar c - 48 else ERROR_ILLEGAL_CHAR.

(** src/lexer.c:298-314 is_end_of_token *)
Definition is_end_of_token (c : ascii) : bool :=
  Ascii.eqb c ch_sp || Ascii.eqb c ch_tab || Ascii.eqb c ch_cr || Ascii.eqb c ch_nl ||
  Ascii.eqb c ch_nul || Ascii.eqb c ","%char || Ascii.eqb c "("%char ||
  Ascii.eqb c ")"%char || Ascii.eqb c ";"%char || (schar c =? EOF).

(** src/lexer.c:354-372: the digit loop.  [n] is [num_chars], the number of
    characters read so far.  Result: whether the loop was left by [break] or the end
    of the string ([true]) or by the illegal-character return ([false]), the total
    and the number of characters. *)
Fixpoint literal_loop (converter : ascii -> Z) (base : Z) (s : text) (total : Z) (n : nat)
  : bool * Z * nat :=
  match s with
  | [] => (true, total, n)
  | c :: s' =>
    let char_value := converter c in
    if negb (char_value =? ERROR_ILLEGAL_CHAR) then
      literal_loop converter base s' (u64 (u64 (total * base) + char_value)) (S n)
    else if negb (is_end_of_token c) then (false, total, n)
    else (true, total, n)
  end.

(** src/lexer.c:325-392 lex_literal.  [curr] is always [num_chars] characters after
    [literal], so the error position is [off + num_chars]. *)
Definition lex_literal (off : nat) (literal : text) (tk : Token) : Z * Token :=
  let c := hdc literal in
  let start :=
    if Ascii.eqb c "$"%char then Some (16, hex_digit_to_int, 1%nat)
    else if Ascii.eqb c "%"%char then Some (2, bin_digit_to_int, 1%nat)
    else if in_range 48 (schar c) 57 then Some (10, dec_digit_to_int, 0%nat)
    else None in
  match start with
  | None => (ERROR_ILLEGAL_CHAR, tk_set_error tk off)
  | Some (base, converter, prefix) =>
    let '(stopped, total, num_chars) :=
      literal_loop converter base (skipn prefix literal) 0 prefix in
    if negb stopped then (ERROR_ILLEGAL_CHAR, tk_set_error tk (off + num_chars))
    else if Nat.eqb num_chars 0 then (ERROR_ILLEGAL_CHAR, tk_set_error tk (off + num_chars))
    else if Nat.eqb num_chars 1 && ((base =? 2) || (base =? 16)) then
      (ERROR_ILLEGAL_CHAR, tk_set_error tk (off + num_chars))
    else if 0xFFFF <? total then (ERROR_TOO_BIG_LITERAL, tk_set_error tk off)
    else (Z.of_nat num_chars, tk_set_value (tk_set_type tk TOKEN_LITERAL) total)
  end.

(** src/lexer.c:406-416 lex_instruction *)
Definition lex_instruction (tk : Token) (instr : Instruction) : Z * Token * Instruction :=
  let mnemonic := str_to_mnemonic (tk_str tk) in
  match mnemonic with
  | ILLEGAL_MNEMONIC => (ERROR_INSTRUCTION_NOT_FOUND, tk, instr)
  | _ => (Z.of_nat (List.length (tk_str tk)), tk_set_type tk TOKEN_INSTRUCTION,
          mkInstr mnemonic (get_addr_bitfield mnemonic) (i_bitflag instr) (i_opcode instr))
  end.

(** src/lexer.c:432-440 and 499-510, how a scanning loop ends: by [break] or by running its entire course after [n]
    characters, or on an illegal character at index [n] *)
Inductive scan := ScanEnd (n : nat) | ScanBad (n : nat).

(** src/lexer.c:432-440: the scanning loop of lex_directive; [fuel] is the number
    of turns left before num_chars reaches MAX_TOKEN_STR_LEN *)
Fixpoint scan_directive (fuel : nat) (s : text) (n : nat) : M scan :=
  match fuel with
  | O => Ret (ScanEnd n)
  | S fuel' =>
    let c := hdc s in
    if is_end_of_token c then Ret (ScanEnd n)
    else
      a <- isalpha c ;;
      if negb a then Ret (ScanBad n)
      else match s with
           | [] => Undef UbUnderrun
           | _ :: s' => scan_directive fuel' s' (S n)
           end
  end.

(** src/lexer.c:427-463 lex_directive *)
Definition lex_directive (off : nat) (buffer : text) (tk : Token) : M (Z * Token) :=
  r <- scan_directive (MAX_TOKEN_STR_LEN - 1) (tl buffer) 1 ;;
  match r with
  | ScanBad n => Ret (ERROR_ILLEGAL_CHAR, tk_set_error tk (off + n))
  | ScanEnd num_chars =>
    if Nat.eqb num_chars MAX_TOKEN_STR_LEN then
      Ret (ERROR_ILLEGAL_DIRECTIVE, tk_set_error tk off)
    else
      tk1 <- token_strncpy tk buffer num_chars ;;
      if text_eqb (tk_str tk1) (T ".DEFINE") then
        Ret (Z.of_nat num_chars, tk_set_type tk1 TOKEN_DEFINE_DIRECTIVE)
      else if text_eqb (tk_str tk1) (T ".EQU") then
        Ret (Z.of_nat num_chars, tk_set_type tk1 TOKEN_EQU_DIRECTIVE)
      else if text_eqb (tk_str tk1) (T ".ORG") then
        Ret (Z.of_nat num_chars, tk_set_type tk1 TOKEN_ORG_DIRECTIVE)
      else if text_eqb (tk_str tk1) (T ".END") then
        Ret (Z.of_nat num_chars, tk_set_type tk1 TOKEN_END_DIRECTIVE)
      else Ret (ERROR_ILLEGAL_DIRECTIVE, tk_set_error tk1 off)
  end.

(** src/lexer.c:473-478 is_valid_token_char *)
Definition is_valid_token_char (c : ascii) : M bool :=
  a <- isalnum c ;;
  Ret (a || Ascii.eqb c "_"%char).

(** src/lexer.c:499-510: the scanning loop of lex_text *)
Fixpoint scan_text (fuel : nat) (s : text) (n : nat) : M scan :=
  match fuel with
  | O => Ret (ScanEnd n)
  | S fuel' =>
    let c := hdc s in
    if is_end_of_token c || Ascii.eqb c ":"%char then Ret (ScanEnd n)
    else
      v <- is_valid_token_char c ;;
      if negb v then Ret (ScanBad n)
      else match s with
           | [] => Undef UbUnderrun
           | _ :: s' => scan_text fuel' s' (S n)
           end
  end.

(** src/lexer.c:495-539 lex_text *)
Definition lex_text (off : nat) (buffer : text) (tk : Token) (instr : Instruction)
  : M (Z * Token * Instruction) :=
  r <- scan_text MAX_TOKEN_STR_LEN buffer 0 ;;
  match r with
  | ScanBad n => Ret (ERROR_ILLEGAL_CHAR, tk_set_error tk (off + n), instr)
  | ScanEnd num_chars =>
    if Nat.eqb num_chars MAX_TOKEN_STR_LEN then
      Ret (ERROR_TOO_LONG_LABEL, tk_set_error tk off, instr)
    else
      tk1 <- token_strncpy tk buffer num_chars ;;
      if text_eqb (tk_str tk1) (T "X") then
        Ret (Z.of_nat num_chars, tk_set_type tk1 TOKEN_X_REGISTER, instr)
      else if text_eqb (tk_str tk1) (T "Y") then
        Ret (Z.of_nat num_chars, tk_set_type tk1 TOKEN_Y_REGISTER, instr)
      else if text_eqb (tk_str tk1) (T "A") then
        Ret (Z.of_nat num_chars, tk_set_type tk1 TOKEN_ACCUMULATOR, instr)
      else
        let '(lex_instr, tk2, instr2) := lex_instruction tk1 instr in
        if lex_instr =? ERROR_INSTRUCTION_NOT_FOUND then
          Ret (Z.of_nat num_chars, tk_set_type tk2 TOKEN_LABEL, instr2)
        else Ret (Z.of_nat num_chars, tk2, instr2)
  end.

(** src/lexer.c:552-591 lex *)
Definition lex (off : nat) (buffer : text) (tk0 : Token) (instr : Instruction)
  : M (Z * Token * Instruction) :=
  let c := hdc buffer in
  let tk := tk_set_loc tk0 off in
  let single ty str :=
    tk1 <- token_strncpy (tk_set_type tk ty) (T str) 1 ;;
    Ret (1, tk1, instr) in
  if Ascii.eqb c "#"%char then single TOKEN_IMMEDIATE "#"%string
  else if Ascii.eqb c "("%char then single TOKEN_OPEN_PARENTHESIS "("%string
  else if Ascii.eqb c ")"%char then single TOKEN_CLOSE_PARENTHESIS ")"%string
  else if Ascii.eqb c ","%char then single TOKEN_COMMA ","%string
  else if Ascii.eqb c "="%char then single TOKEN_EQUAL_SIGN "="%string
  else if Ascii.eqb c "*"%char then single TOKEN_BASE "*"%string
  else
    a <- isalpha c ;;
    if a then lex_text off buffer tk instr
    else if Ascii.eqb c "$"%char || Ascii.eqb c "%"%char || in_range 48 (schar c) 57 then
      let '(n, tk1) := lex_literal off buffer tk in Ret (n, tk1, instr)
    else if Ascii.eqb c "."%char then
      '(n, tk1) <- lex_directive off buffer tk ;; Ret (n, tk1, instr)
    else Ret (ERROR_ILLEGAL_CHAR, tk_set_error tk off, instr).

(** src/lexer.c:601-612 end_line_lexing *)
Definition end_line_lexing (c : ascii) : bool :=
  Ascii.eqb c ch_cr || Ascii.eqb c ch_nl || Ascii.eqb c ";"%char ||
  Ascii.eqb c ch_nul || (schar c =? EOF).

(** the test of src/lexer.c:642, 678 (and src/forward_reference.c:114) *)
Definition is_blank (c : ascii) : bool := Ascii.eqb c ch_sp || Ascii.eqb c ch_tab.

(** src/lexer.c:642-643 and 677-678: skip blanks; returns the new offset and rest *)
Fixpoint skip_blanks (off : nat) (s : text) : nat * text :=
  match s with
  | [] => (off, [])
  | c :: s' => if is_blank c then skip_blanks (S off) s' else (off, s)
  end.

(** src/lexer.c:682-687: fill the rest of the sequence with null tokens *)
Fixpoint fill_null (curr : nat) (seq : list Token) : list Token :=
  match seq with
  | [] => []
  | t :: seq' =>
    match curr with
    | O => tk_set_type t TOKEN_NULL :: fill_null O seq'
    | S k => t :: fill_null k seq'
    end
  end.

(** src/lexer.c:630, the value returned by lex_line and the structs it leaves, and what it printed *)
Definition LexResult : Type := (Z * Lexer * Token * Instruction * text)%type.

(** src/lexer.c:647-688: the token loop of lex_line and its epilogue.  Every turn
    reads at least one character, so [fuel] is bounded by the length of the line;
    exhausting it is [Diverge]. *)
Fixpoint lex_loop (fuel : nat) (buffer : text) (off : nat) (s : text)
    (lexer : Lexer) (tk : Token) (instr : Instruction) (out : text) : M LexResult :=
  match fuel with
  | O => Diverge
  | S fuel' =>
    if end_line_lexing (hdc s) then
      Ret (LEXER_SUCCESS, lx_set_seq lexer (fill_null (Z.to_nat (lx_curr lexer)) (lx_seq lexer)),
           tk, instr, out)
    else
      '(num_chars, tk1, instr1) <- lex off s tk instr ;;
      if num_chars <? 0 then
        o <- print_error (Some buffer) num_chars (tk_error_char tk1) (lx_file lexer)
                         (lx_line_num lexer) ;;
        Ret (num_chars, lexer, tk1, instr1, out ++ o)
      else
        '(r, lexer1, o) <- add_token lexer tk1 ;;
        let out1 := out ++ o in
        if r =? ERROR_TOO_MANY_TOKENS then
          Ret (ERROR_TOO_MANY_TOKENS, lexer1, tk1, instr1, out1)
        else if Nat.ltb (List.length s) (Z.to_nat num_chars) then Undef UbUnderrun
        else
          let off1 := (off + Z.to_nat num_chars)%nat in
          let s1 := skipn (Z.to_nat num_chars) s in
          if Ascii.eqb (hdc s1) ":"%char then
            if ty_eqb (tk_type tk1) TOKEN_LABEL && (lx_curr lexer1 =? 1) then
              let '(off2, s2) := skip_blanks (S off1) (tl s1) in
              lex_loop fuel' buffer off2 s2 lexer1 tk1 instr1 out1
            else
              let tk2 := tk_set_error tk1 off1 in
              o2 <- print_error (Some buffer) ERROR_ILLEGAL_CHAR (tk_error_char tk2)
                                (lx_file lexer1) (lx_line_num lexer1) ;;
              Ret (ERROR_ILLEGAL_CHAR, lexer1, tk2, instr1, out1 ++ o2)
          else
            let '(off2, s2) := skip_blanks off1 s1 in
            lex_loop fuel' buffer off2 s2 lexer1 tk1 instr1 out1
  end.

(** src/lexer.c:630-689 lex_line *)
Definition lex_line (buffer : text) (lexer0 : Lexer) (tk0 : Token) (instr0 : Instruction)
    (line_num : Z) : M LexResult :=
  let lexer1 := reset_lexer lexer0 in
  let instr := reset_instruction instr0 in
  let tk := reset_token tk0 in
  let lexer := mkLexer (lx_seq lexer1) (lx_curr lexer1) (lx_error_tk lexer1) (Some buffer)
                       line_num (lx_file lexer1) in
  let '(off, s) := skip_blanks 0 buffer in
  lex_loop (S (List.length buffer)) buffer off s lexer tk instr [].
