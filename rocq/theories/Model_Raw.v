(** Model_Raw.v -- src/lexer.c, src/error.c and create_forward_ref of src/forward_reference.c on the bytes of their
    buffers.  Model_Lexer.v has C strings as lists that end with the string; here a buffer is an array of bytes that goes on
    behind the terminating NUL with whatever was there before, every access has an index, and an index outside of the array is
    undefined behaviour.  The source line is read into an array of src/main.c:178, the text of a token is an array of 64
    bytes (src/lexer.c:38). *)
From Verif Require Import Base Model_Opcode Model_Error Model_Lexer Model_SymbolTable Model_Parser Model_ForwardRef
  Model_Generator Model_Main.

(** an array of bytes; a[i] read and written *)
Definition mem := list ascii.
(** a[i] read (src/lexer.c, throughout) *)
Definition rd (a : mem) (i : nat) : M ascii :=
  match nth_error a i with Some c => Ret c | None => Undef UbIndex end.
(** a[i] = c (src/lexer.c, throughout) *)
Definition wrb (a : mem) (i : nat) (c : ascii) : M mem :=
  if Nat.ltb i (List.length a) then Ret (upd a i c) else Undef UbIndex.
(** *p for a pointer that moves to the left (src/error.c:99-101, src/forward_reference.c:108-115): the index may become -1 *)
Definition rd_left (a : mem) (i : Z) : M ascii :=
  if i <? 0 then Undef UbUnderrun else rd a (Z.to_nat i).

(** ** <string.h> *)
(** strlen(&a[i]); each turn reads one more byte of the array, so its length bounds the turns *)
Fixpoint strlen_loop (fuel : nat) (a : mem) (i n : nat) : M nat :=
  match fuel with
  | O => Diverge
  | S k => c <- rd a (i + n) ;; if Ascii.eqb c ch_nul then Ret n else strlen_loop k a i (S n)
  end.
(** strlen(&a[i]) (C library; src/lexer.c:177, 413, src/error.c:99) *)
Definition strlen (a : mem) (i : nat) : M nat := strlen_loop (S (List.length a)) a i 0.

(** !strcmp(a, b) *)
Fixpoint strcmp_loop (fuel : nat) (a b : mem) (i : nat) : M bool :=
  match fuel with
  | O => Diverge
  | S k =>
    x <- rd a i ;;
    y <- rd b i ;;
    if negb (Ascii.eqb x y) then Ret false
    else if Ascii.eqb x ch_nul then Ret true
    else strcmp_loop k a b (S i)
  end.
(** !strcmp(a, b) (C library; src/lexer.c, src/opcode.c) *)
Definition strcmp_equal (a b : mem) : M bool := strcmp_loop (S (List.length a)) a b 0.

(** memcpy(dst, &src[from], n), from the byte [i] on *)
Fixpoint memcpy_loop (n i : nat) (dst src : mem) (from : nat) : M mem :=
  match n with
  | O => Ret dst
  | S k => c <- rd src (from + i) ;; d <- wrb dst i c ;; memcpy_loop k (S i) d src from
  end.
(** memcpy(dst, &src[from], n) (C library; src/lexer.c:178) *)
Definition memcpy (dst src : mem) (from n : nat) : M mem := memcpy_loop n 0 dst src from.

(** a string constant of the program *)
Definition lit (s : string) : mem := T s ++ [ch_nul].

(** ** Tokens.  The member [tk_str] of a [Token] is here the whole array of 64 bytes, [lx_line] of a [Lexer] the whole line
    buffer.  The structs as the rest of the program sees them: *)
Definition see_token (t : Token) : Token := tk_set_str t (cstring (tk_str t)).
(** Not in the code: the Lexer as the rest of the program sees it *)
Definition see_lexer (l : Lexer) : Lexer :=
  mkLexer (map see_token (lx_seq l)) (lx_curr l) (lx_error_tk l) (option_map cstring (lx_line l)) (lx_line_num l) (lx_file l).

(** src/lexer.c:93-101 reset_token: the loop over the 64 bytes *)
Fixpoint clear_loop (n i : nat) (a : mem) : M mem :=
  match n with
  | O => Ret a
  | S k => a' <- wrb a i ch_nul ;; clear_loop k (S i) a'
  end.
(** src/lexer.c:93-101 reset_token *)
Definition reset_token_raw (t : Token) : M Token :=
  a <- clear_loop MAX_TOKEN_STR_LEN 0 (tk_str t) ;;
  Ret (mkTok TOKEN_NULL a 0 None None).

(** src/lexer.c:111-113, the loop of reset_lexer *)
Fixpoint reset_all (seq : list Token) : M (list Token) :=
  match seq with
  | [] => Ret []
  | t :: seq' => t1 <- reset_token_raw t ;; r <- reset_all seq' ;; Ret (t1 :: r)
  end.
(** src/lexer.c:109-118 reset_lexer *)
Definition reset_lexer_raw (l : Lexer) : M Lexer :=
  seq <- reset_all (lx_seq l) ;;
  Ret (mkLexer seq 0 None None (-1) (lx_file l)).

(** src/lexer.c:170-180 token_strcpy *)
Definition token_strcpy_raw (t : Token) (str : mem) : M Token :=
  c <- rd str 0 ;;
  if Ascii.eqb c ch_nul then Ret t
  else
    n <- strlen str 0 ;;
    a <- memcpy (tk_str t) str 0 (n + 1) ;;
    Ret (tk_set_str t a).

(** src/lexer.c:202-205: the loop of token_strncpy *)
Fixpoint upper_loop (n i : nat) (dst src : mem) (from : nat) : M mem :=
  match n with
  | O => Ret dst
  | S k =>
    c <- rd src (from + i) ;;
    if negb (ctype_ok c) then Undef UbCtype
    else d <- wrb dst i (toupper c) ;; upper_loop k (S i) d src from
  end.
(** src/lexer.c:200-208 token_strncpy(tk, &buffer[from], length) *)
Definition token_strncpy_raw (t : Token) (buffer : mem) (from length : nat) : M Token :=
  a <- upper_loop length 0 (tk_str t) buffer from ;;
  a1 <- wrb a length ch_nul ;;
  Ret (tk_set_str t a1).

(** ** src/error.c *)
(** src/error.c:100-101: [end] moves left over blanks *)
Fixpoint left_over (fuel : nat) (p : ascii -> bool) (a : mem) (e : Z) : M Z :=
  match fuel with
  | O => Diverge
  | S k => c <- rd_left a e ;; if p c then left_over k p a (e - 1) else Ret e
  end.
(** src/error.c:102-103: putchar of for the [n] bytes from [i] on *)
Fixpoint put_bytes (n i : nat) (a : mem) : M text :=
  match n with
  | O => Ret []
  | S k => c <- rd a i ;; r <- put_bytes k (S i) a ;; Ret (c :: r)
  end.

(** src/error.c:33-130 print_error; [bad_char] is an index of [line] *)
Definition print_error_raw (line : option mem) (error_code : Z) (bad_char : option nat)
    (file_name : text) (line_num : Z) : M text :=
  let prefix := match line with
                | Some _ => file_name ++ T ":" ++ fmt_d line_num ++ T ": "
                | None => []
                end in
  match error_message error_code file_name with
  | None => Ret prefix
  | Some msg =>
    match line with
    | None => Ret (prefix ++ msg ++ [ch_nl])
    | Some l =>
      n <- strlen l 0 ;;
      e <- left_over (S (List.length l)) is_trailing l (Z.of_nat n - 1) ;;
      shown <- put_bytes (Z.to_nat (e + 1)) 0 l ;;
      match bad_char with
      | None => Ret (prefix ++ msg ++ shown ++ [ch_nl] ++ [ch_nl])
      | Some b =>
        before <- put_bytes b 0 l ;;
        Ret (prefix ++ msg ++ shown ++ [ch_nl] ++
             repeat ch_sp (arrow_spaces before) ++ T "^~~~~~" ++ [ch_nl; ch_nl])
      end
    end
  end.

(** ** src/lexer.c *)
(** src/lexer.c:220-241 add_token *)
Definition add_token_raw (lexer : Lexer) (tk : Token) : M (Z * Lexer * text) :=
  if lx_curr lexer =? MAX_TOKENS then Ret (ERROR_TOO_MANY_TOKENS, lexer, [])
  else
    new <- get (lx_seq lexer) (lx_curr lexer) ;;
    if ty_eqb (tk_type new) TOKEN_NULL then
      new1 <- token_strcpy_raw (tk_set_type new (tk_type tk)) (tk_str tk) ;;
      let new2 := mkTok (tk_type new1) (tk_str new1) (tk_value tk) (tk_error_char new1) (tk_loc tk) in
      seq <- put (lx_seq lexer) (lx_curr lexer) new2 ;;
      Ret (TOKEN_INSERTION_SUCCESS,
           mkLexer seq (lx_curr lexer + 1) (lx_error_tk lexer) (lx_line lexer) (lx_line_num lexer) (lx_file lexer), [])
    else
      out <- print_error_raw (lx_line lexer) ERROR_UNKNOWN None (lx_file lexer) (lx_line_num lexer) ;;
      Ret (ERROR_UNKNOWN, lexer, out).

(** src/lexer.c:354-372: the digit loop; [curr] is the index of the current byte *)
Fixpoint literal_loop_raw (fuel : nat) (converter : ascii -> Z) (base : Z) (a : mem) (curr : nat) (total : Z) (n : nat)
  : M (bool * Z * nat) :=
  match fuel with
  | O => Diverge
  | S k =>
    c <- rd a curr ;;
    if Ascii.eqb c ch_nul then Ret (true, total, n)
    else
      let char_value := converter c in
      if negb (char_value =? ERROR_ILLEGAL_CHAR) then
        literal_loop_raw k converter base a (S curr) (u64 (u64 (total * base) + char_value)) (S n)
      else if negb (is_end_of_token c) then Ret (false, total, n)
      else Ret (true, total, n)
  end.

(** src/lexer.c:325-392 lex_literal(&a[off], tk) *)
Definition lex_literal_raw (a : mem) (off : nat) (tk : Token) : M (Z * Token) :=
  c <- rd a off ;;
  let start :=
    if Ascii.eqb c "$"%char then Some (16, hex_digit_to_int, 1%nat)
    else if Ascii.eqb c "%"%char then Some (2, bin_digit_to_int, 1%nat)
    else if in_range 48 (schar c) 57 then Some (10, dec_digit_to_int, 0%nat)
    else None in
  match start with
  | None => Ret (ERROR_ILLEGAL_CHAR, tk_set_error tk off)
  | Some (base, converter, prefix) =>
    '(stopped, total, num_chars) <-
      literal_loop_raw (S (List.length a)) converter base a (off + prefix) 0 prefix ;;
    if negb stopped then Ret (ERROR_ILLEGAL_CHAR, tk_set_error tk (off + num_chars))
    else if Nat.eqb num_chars 0 then Ret (ERROR_ILLEGAL_CHAR, tk_set_error tk (off + num_chars))
    else if Nat.eqb num_chars 1 && ((base =? 2) || (base =? 16)) then
      Ret (ERROR_ILLEGAL_CHAR, tk_set_error tk (off + num_chars))
    else if 0xFFFF <? total then Ret (ERROR_TOO_BIG_LITERAL, tk_set_error tk off)
    else Ret (Z.of_nat num_chars, tk_set_value (tk_set_type tk TOKEN_LITERAL) total)
  end.

(** src/opcode.c:117-172: the comparisons of str_to_mnemonic *)
Definition mnemonic_strings : list (string * Mnemonic) := [
   ("ADC"%string, ADC); ("AND"%string, AND); ("ASL"%string, ASL); ("BCC"%string, BCC);
   ("BCS"%string, BCS); ("BEQ"%string, BEQ); ("BIT"%string, BIT); ("BMI"%string, BMI);
   ("BNE"%string, BNE); ("BPL"%string, BPL); ("BRK"%string, BRK); ("BVC"%string, BVC);
   ("BVS"%string, BVS); ("CLC"%string, CLC); ("CLD"%string, CLD); ("CLI"%string, CLI);
   ("CLV"%string, CLV); ("CMP"%string, CMP); ("CPX"%string, CPX); ("CPY"%string, CPY);
   ("DEC"%string, DEC); ("DEX"%string, DEX); ("DEY"%string, DEY); ("EOR"%string, EOR);
   ("INC"%string, INC); ("INX"%string, INX); ("INY"%string, INY); ("JMP"%string, JMP);
   ("JSR"%string, JSR); ("LDA"%string, LDA); ("LDX"%string, LDX); ("LDY"%string, LDY);
   ("LSR"%string, LSR); ("NOP"%string, NOP); ("ORA"%string, ORA); ("PHA"%string, PHA);
   ("PHP"%string, PHP); ("PLA"%string, PLA); ("PLP"%string, PLP); ("ROL"%string, ROL);
   ("ROR"%string, ROR); ("RTI"%string, RTI); ("RTS"%string, RTS); ("SBC"%string, SBC);
   ("SEC"%string, SEC); ("SED"%string, SED); ("SEI"%string, SEI); ("STA"%string, STA);
   ("STX"%string, STX); ("STY"%string, STY); ("TAX"%string, TAX); ("TAY"%string, TAY);
   ("TSX"%string, TSX); ("TXA"%string, TXA); ("TXS"%string, TXS); ("TYA"%string, TYA)].
(** src/opcode.c:112-174 str_to_mnemonic *)
Fixpoint str_to_mnemonic_raw (names : list (string * Mnemonic)) (str : mem) : M Mnemonic :=
  match names with
  | [] => Ret ILLEGAL_MNEMONIC
  | (n, m) :: rest => e <- strcmp_equal (lit n) str ;; if e then Ret m else str_to_mnemonic_raw rest str
  end.

(** src/lexer.c:406-416 lex_instruction *)
Definition lex_instruction_raw (tk : Token) (instr : Instruction) : M (Z * Token * Instruction) :=
  mnemonic <- str_to_mnemonic_raw mnemonic_strings (tk_str tk) ;;
  match mnemonic with
  | ILLEGAL_MNEMONIC => Ret (ERROR_INSTRUCTION_NOT_FOUND, tk, instr)
  | _ =>
    n <- strlen (tk_str tk) 0 ;;
    Ret (Z.of_nat n, tk_set_type tk TOKEN_INSTRUCTION,
         mkInstr mnemonic (get_addr_bitfield mnemonic) (i_bitflag instr) (i_opcode instr))
  end.

(** src/lexer.c:432-440: the scanning loop of lex_directive *)
Fixpoint scan_directive_raw (fuel : nat) (a : mem) (off n : nat) : M scan :=
  match fuel with
  | O => Ret (ScanEnd n)
  | S k =>
    c <- rd a (off + n) ;;
    if is_end_of_token c then Ret (ScanEnd n)
    else
      al <- isalpha c ;;
      if negb al then Ret (ScanBad n) else scan_directive_raw k a off (S n)
  end.

(** src/lexer.c:427-463 lex_directive(&a[off], tk) *)
Definition lex_directive_raw (a : mem) (off : nat) (tk : Token) : M (Z * Token) :=
  r <- scan_directive_raw (MAX_TOKEN_STR_LEN - 1) a off 1 ;;
  match r with
  | ScanBad n => Ret (ERROR_ILLEGAL_CHAR, tk_set_error tk (off + n))
  | ScanEnd num_chars =>
    if Nat.eqb num_chars MAX_TOKEN_STR_LEN then
      Ret (ERROR_ILLEGAL_DIRECTIVE, tk_set_error tk off)
    else
      tk1 <- token_strncpy_raw tk a off num_chars ;;
      e1 <- strcmp_equal (tk_str tk1) (lit ".DEFINE") ;;
      if e1 then Ret (Z.of_nat num_chars, tk_set_type tk1 TOKEN_DEFINE_DIRECTIVE)
      else
      e2 <- strcmp_equal (tk_str tk1) (lit ".EQU") ;;
      if e2 then Ret (Z.of_nat num_chars, tk_set_type tk1 TOKEN_EQU_DIRECTIVE)
      else
      e3 <- strcmp_equal (tk_str tk1) (lit ".ORG") ;;
      if e3 then Ret (Z.of_nat num_chars, tk_set_type tk1 TOKEN_ORG_DIRECTIVE)
      else
      e4 <- strcmp_equal (tk_str tk1) (lit ".END") ;;
      if e4 then Ret (Z.of_nat num_chars, tk_set_type tk1 TOKEN_END_DIRECTIVE)
      else Ret (ERROR_ILLEGAL_DIRECTIVE, tk_set_error tk1 off)
  end.

(** src/lexer.c:499-510: the scanning loop of lex_text *)
Fixpoint scan_text_raw (fuel : nat) (a : mem) (off n : nat) : M scan :=
  match fuel with
  | O => Ret (ScanEnd n)
  | S k =>
    c <- rd a (off + n) ;;
    if is_end_of_token c || Ascii.eqb c ":"%char then Ret (ScanEnd n)
    else
      v <- is_valid_token_char c ;;
      if negb v then Ret (ScanBad n) else scan_text_raw k a off (S n)
  end.

(** src/lexer.c:495-539 lex_text(&a[off], tk, instr) *)
Definition lex_text_raw (a : mem) (off : nat) (tk : Token) (instr : Instruction) : M (Z * Token * Instruction) :=
  r <- scan_text_raw MAX_TOKEN_STR_LEN a off 0 ;;
  match r with
  | ScanBad n => Ret (ERROR_ILLEGAL_CHAR, tk_set_error tk (off + n), instr)
  | ScanEnd num_chars =>
    if Nat.eqb num_chars MAX_TOKEN_STR_LEN then
      Ret (ERROR_TOO_LONG_LABEL, tk_set_error tk off, instr)
    else
      tk1 <- token_strncpy_raw tk a off num_chars ;;
      e1 <- strcmp_equal (tk_str tk1) (lit "X") ;;
      if e1 then Ret (Z.of_nat num_chars, tk_set_type tk1 TOKEN_X_REGISTER, instr)
      else
      e2 <- strcmp_equal (tk_str tk1) (lit "Y") ;;
      if e2 then Ret (Z.of_nat num_chars, tk_set_type tk1 TOKEN_Y_REGISTER, instr)
      else
      e3 <- strcmp_equal (tk_str tk1) (lit "A") ;;
      if e3 then Ret (Z.of_nat num_chars, tk_set_type tk1 TOKEN_ACCUMULATOR, instr)
      else
        '(lex_instr, tk2, instr2) <- lex_instruction_raw tk1 instr ;;
        if lex_instr =? ERROR_INSTRUCTION_NOT_FOUND then
          Ret (Z.of_nat num_chars, tk_set_type tk2 TOKEN_LABEL, instr2)
        else Ret (Z.of_nat num_chars, tk2, instr2)
  end.

(** src/lexer.c:552-591 lex(&a[off], tk, instr) *)
Definition lex_raw (a : mem) (off : nat) (tk0 : Token) (instr : Instruction) : M (Z * Token * Instruction) :=
  c <- rd a off ;;
  let tk := tk_set_loc tk0 off in
  let single ty str :=
    tk1 <- token_strncpy_raw (tk_set_type tk ty) (lit str) 0 1 ;;
    Ret (1, tk1, instr) in
  if Ascii.eqb c "#"%char then single TOKEN_IMMEDIATE "#"%string
  else if Ascii.eqb c "("%char then single TOKEN_OPEN_PARENTHESIS "("%string
  else if Ascii.eqb c ")"%char then single TOKEN_CLOSE_PARENTHESIS ")"%string
  else if Ascii.eqb c ","%char then single TOKEN_COMMA ","%string
  else if Ascii.eqb c "="%char then single TOKEN_EQUAL_SIGN "="%string
  else if Ascii.eqb c "*"%char then single TOKEN_BASE "*"%string
  else
    al <- isalpha c ;;
    if al then lex_text_raw a off tk instr
    else if Ascii.eqb c "$"%char || Ascii.eqb c "%"%char || in_range 48 (schar c) 57 then
      '(n, tk1) <- lex_literal_raw a off tk ;; Ret (n, tk1, instr)
    else if Ascii.eqb c "."%char then
      '(n, tk1) <- lex_directive_raw a off tk ;; Ret (n, tk1, instr)
    else Ret (ERROR_ILLEGAL_CHAR, tk_set_error tk off, instr).

(** src/lexer.c:642-643 and 677-678: skip blanks *)
Fixpoint skip_blanks_raw (fuel : nat) (a : mem) (off : nat) : M nat :=
  match fuel with
  | O => Diverge
  | S k => c <- rd a off ;; if is_blank c then skip_blanks_raw k a (S off) else Ret off
  end.

(** src/lexer.c:647-688: the token loop of lex_line and its epilogue *)
Fixpoint lex_loop_raw (fuel : nat) (a : mem) (off : nat) (lexer : Lexer) (tk : Token) (instr : Instruction) (out : text)
  : M LexResult :=
  match fuel with
  | O => Diverge
  | S k =>
    c <- rd a off ;;
    if end_line_lexing c then
      Ret (LEXER_SUCCESS, lx_set_seq lexer (fill_null (Z.to_nat (lx_curr lexer)) (lx_seq lexer)), tk, instr, out)
    else
      '(num_chars, tk1, instr1) <- lex_raw a off tk instr ;;
      if num_chars <? 0 then
        o <- print_error_raw (Some a) num_chars (tk_error_char tk1) (lx_file lexer) (lx_line_num lexer) ;;
        Ret (num_chars, lexer, tk1, instr1, out ++ o)
      else
        '(r, lexer1, o) <- add_token_raw lexer tk1 ;;
        let out1 := out ++ o in
        if r =? ERROR_TOO_MANY_TOKENS then
          Ret (ERROR_TOO_MANY_TOKENS, lexer1, tk1, instr1, out1)
        else
          let off1 := (off + Z.to_nat num_chars)%nat in
          c1 <- rd a off1 ;;
          if Ascii.eqb c1 ":"%char then
            if ty_eqb (tk_type tk1) TOKEN_LABEL && (lx_curr lexer1 =? 1) then
              off2 <- skip_blanks_raw (S (List.length a)) a (S off1) ;;
              lex_loop_raw k a off2 lexer1 tk1 instr1 out1
            else
              let tk2 := tk_set_error tk1 off1 in
              o2 <- print_error_raw (Some a) ERROR_ILLEGAL_CHAR (tk_error_char tk2) (lx_file lexer1) (lx_line_num lexer1) ;;
              Ret (ERROR_ILLEGAL_CHAR, lexer1, tk2, instr1, out1 ++ o2)
          else
            off2 <- skip_blanks_raw (S (List.length a)) a off1 ;;
            lex_loop_raw k a off2 lexer1 tk1 instr1 out1
  end.

(** src/lexer.c:630-689 lex_line *)
Definition lex_line_raw (a : mem) (lexer0 : Lexer) (tk0 : Token) (instr0 : Instruction) (line_num : Z) : M LexResult :=
  lexer1 <- reset_lexer_raw lexer0 ;;
  let instr := reset_instruction instr0 in
  tk <- reset_token_raw tk0 ;;
  let lexer := mkLexer (lx_seq lexer1) (lx_curr lexer1) (lx_error_tk lexer1) (Some a) line_num (lx_file lexer1) in
  off <- skip_blanks_raw (S (List.length a)) a 0 ;;
  lex_loop_raw (S (List.length a)) a off lexer tk instr [].

(** ** src/forward_reference.c:98-156 create_forward_ref.  [alloc_ok] as in Model_ForwardRef.v; calloc fills with zeros.
    The strings of the result are those the new arrays hold. *)
Definition create_forward_ref_raw (alloc_ok : bool) (buffer : mem) (instr : Instruction)
    (operand : Token) (operand_status pc line_num : Z) : M (option ForwardRef) :=
  if negb alloc_ok then Ret None
  else
    n <- strlen buffer 0 ;;
    let e0 := Z.of_nat n - 1 in
    c <- rd_left buffer e0 ;;
    let e1 := if Ascii.eqb c ch_nl then e0 - 1 else e0 in
    e <- left_over (S (List.length buffer)) is_blank buffer e1 ;;
    let num_chars := Z.to_nat (e + 1) in
    source_line <- memcpy (repeat ch_nul (num_chars + 1)) buffer 0 num_chars ;;
    label_length <- strlen (tk_str operand) 0 ;;
    label <- memcpy (repeat ch_nul (label_length + 1)) (tk_str operand) 0 label_length ;;
    match tk_loc operand with
    | None => Undef UbNull
    | Some dist_to_operand =>
      Ret (Some (mkRef (cstring label) (cstring source_line)
                       (mkInstr (i_mnemonic instr) (i_bitfield instr) (i_bitflag instr) (i_opcode instr))
                       pc line_num operand_status dist_to_operand))
    end.

(** ** src/symbol_table.c on bytes *)
(** src/symbol_table.c:78-84 djb2_hash *)
Fixpoint djb2_loop (fuel : nat) (a : mem) (i : nat) (hash : Z) : M Z :=
  match fuel with
  | O => Diverge
  | S k => c <- rd a i ;; if Ascii.eqb c ch_nul then Ret hash else djb2_loop k a (S i) (djb2_step hash c)
  end.
(** src/symbol_table.c:78-84 djb2_hash *)
Definition djb2_hash_raw (a : mem) : M Z := djb2_loop (S (List.length a)) a 0 5381.

(** src/symbol_table.c:145-149, the label of a new symbol: calloc(strlen(label) + 1), memcpy of strlen(label) bytes *)
Definition symbol_label_raw (label : mem) : M mem :=
  n <- strlen label 0 ;;
  memcpy (repeat ch_nul (n + 1)) label 0 n.

(** ** src/main.c *)
(** src/main.c:215-259 with the line buffer; as Model_Main.process_instruction *)
Definition process_instruction_raw (env : AllocEnv) (buffer : mem) (strs : list mem) (st : St) : M LineRes :=
  operand <- find_operand (st_lexer st) ;;
  '(operand_status, lexer1, out1) <-
     parse_operand (st_lexer st) (st_instr st) operand (st_symtab st) ;;
  let st1 := mkSt (st_symtab st) (st_unresolved st) (st_pc st) (st_line_num st)
                  (st_written st) (st_total st) (st_out st) lexer1 (st_tk st) (st_instr st)
                  (st_stdout st ++ out1) in
  if IS_ERROR operand_status then Ret (Abort st1)
  else
    let written1 := if operand_status =? BRANCH_FORWARD_REFERENCE then 2
                    else if operand_status =? JUMP_FORWARD_REFERENCE then 3
                    else st_written st in
    '(return_code, instr2, out2) <- parse_addr_mode lexer1 (st_instr st) operand operand_status ;;
    let st2 := mkSt (st_symtab st) (st_unresolved st) (st_pc st) (st_line_num st)
                    written1 (st_total st) (st_out st) lexer1 (st_tk st) instr2
                    (st_stdout st ++ out1 ++ out2) in
    pending <-
      (if return_code =? FORWARD_REFERENCE then
         match operand with
         | None => Undef UbNull
         | Some i =>
           tok <- get (lx_seq lexer1) i ;;
           str <- get strs i ;;
           oref <- create_forward_ref_raw (ok_ref env) buffer instr2 (tk_set_str tok str) operand_status
                                          (st_pc st) (st_line_num st) ;;
           match oref with
           | None => Ret None
           | Some ref =>
             '(code, u) <- add_forward_ref (ok_grow env) (st_unresolved st) ref ;;
             if IS_ERROR code then Ret None
             else
               let f1 := fputc 0 (fputc 0 (st_out st)) in
               Ret (Some (u, if written1 =? 3 then fputc 0 f1 else f1))
           end
         end
       else if IS_ERROR return_code then Ret None
       else Ret (Some (st_unresolved st, st_out st))) ;;
    match pending with
    | None => Ret (Abort st2)
    | Some (unresolved2, outf2) =>
      '(written_bytes, outf3, lexer3, instr3, out3) <-
        (if (operand_status =? BRANCH_OPERAND) || (operand_status =? JUMP_OPERAND) then
           resolve_label_ref outf2 lexer1 instr2 operand operand_status (st_symtab st) (st_pc st)
         else
           otok <- (match operand with
                    | None => Ret None
                    | Some i => t <- get (lx_seq lexer1) i ;; Ret (Some t)
                    end) ;;
           let '(n, f, i3) := generate_code outf2 instr2 otok (st_pc st) in
           Ret (n, f, lexer1, i3, [])) ;;
      let stdout3 := st_stdout st ++ out1 ++ out2 ++ out3 in
      if IS_ERROR written_bytes then
        Ret (Abort (mkSt (st_symtab st) unresolved2 (st_pc st) (st_line_num st) written_bytes
                         (st_total st) outf3 lexer3 (st_tk st) instr3 stdout3))
      else
        line_num <- int_of (st_line_num st + 1) ;;
        pc <- int_of (st_pc st + written_bytes) ;;
        total <- int_of (st_total st + written_bytes) ;;
        Ret (Next (mkSt (st_symtab st) unresolved2 pc line_num written_bytes total outf3
                        lexer3 (st_tk st) instr3 stdout3))
    end.

(** src/main.c:193-259, behind the call of lex_line; as in Model_Main.process_line.  [strs]: the arrays of the tokens *)
Definition after_lex_raw (env : AllocEnv) (buffer : mem) (strs : list mem) (st : St) (return_code : Z) (lexer1 : Lexer)
    (tk1 : Token) (instr1 : Instruction) (out1 : text) : M LineRes :=
  let upd_st lexer symtab pc out :=
    mkSt symtab (st_unresolved st) pc (st_line_num st) (st_written st) (st_total st)
         (st_out st) lexer tk1 instr1 (st_stdout st ++ out) in
  if IS_ERROR return_code then Ret (Abort (upd_st lexer1 (st_symtab st) (st_pc st) out1))
  else
    '(return_code, lexer2, out2) <- parse_line lexer1 ;;
    if IS_ERROR return_code then
      Ret (Abort (upd_st lexer2 (st_symtab st) (st_pc st) (out1 ++ out2)))
    else
      first <- get (lx_seq lexer2) 0 ;;
      let rest (st' : St) : M LineRes :=
        match i_mnemonic instr1 with
        | NULL_MNEMONIC =>
          line_num <- int_of (st_line_num st' + 1) ;;
          Ret (Next (mkSt (st_symtab st') (st_unresolved st') (st_pc st') line_num
                          (st_written st') (st_total st') (st_out st') (st_lexer st')
                          (st_tk st') (st_instr st') (st_stdout st')))
        | _ => process_instruction_raw env buffer strs st'
        end in
      match tk_type first with
      | TOKEN_LABEL | TOKEN_DEFINE_DIRECTIVE =>
        '(code, lexer3, symtab3, out3) <-
           parse_label_declaration (ok_resize env) (ok_symbol env) lexer2 (st_symtab st)
                                   (st_pc st) ;;
        let st' := upd_st lexer3 symtab3 (st_pc st) (out1 ++ out2 ++ out3) in
        if IS_ERROR code then Ret (Abort st') else rest st'
      | TOKEN_BASE | TOKEN_ORG_DIRECTIVE =>
        rest (upd_st lexer2 (st_symtab st) (tk_value first) (out1 ++ out2))
      | TOKEN_END_DIRECTIVE =>
        Ret (Finish (upd_st lexer2 (st_symtab st) (st_pc st) (out1 ++ out2)))
      | _ => rest (upd_st lexer2 (st_symtab st) (st_pc st) (out1 ++ out2))
      end.

(** the tokens of the program with their arrays *)
Definition with_strs (seq : list Token) (strs : list mem) : list Token :=
  map (fun p => tk_set_str (fst p) (snd p)) (combine seq strs).

(** src/main.c:189-259, one turn of the loop.  [strs] and [tkstr]: the arrays of the eight tokens and of the running token,
    before and after.  The parser gets the strings the arrays hold: it reads them with strcmp, strlen and djb2_hash only. *)
Definition process_line_raw (env : AllocEnv) (buffer : mem) (strs : list mem) (tkstr : mem) (st : St)
  : M (LineRes * list mem * mem) :=
  let lexer0 := lx_set_seq (st_lexer st) (with_strs (lx_seq (st_lexer st)) strs) in
  '(return_code, lexer1, tk1, instr1, out1) <-
     lex_line_raw buffer lexer0 (tk_set_str (st_tk st) tkstr) (st_instr st) (st_line_num st) ;;
  let strs1 := map tk_str (lx_seq lexer1) in
  r <- after_lex_raw env buffer strs1 st return_code (see_lexer lexer1) (see_token tk1) instr1 out1 ;;
  Ret (r, strs1, tk_str tk1).

(** src/main.c:188-260.  [lines]: what fgets reads, call by call.  [junk k]: the bytes of the buffer behind the NUL that the
    call number [k] stores *)
Fixpoint run_lines_raw (junk : nat -> mem) (k : nat) (env : Z -> AllocEnv) (lines : list text) (strs : list mem) (tkstr : mem)
    (st : St) : M LineRes :=
  match lines with
  | [] => Ret (Finish st)
  | l :: lines' =>
    '(r, strs1, tkstr1) <- process_line_raw (env (st_line_num st)) (l ++ ch_nul :: junk k) strs tkstr st ;;
    match r with
    | Next st' => run_lines_raw junk (S k) env lines' strs1 tkstr1 st'
    | _ => Ret r
    end
  end.

(** src/main.c:178-290; [strs], [tkstr]: the arrays of the tokens at the start *)
Definition assemble_raw (junk : nat -> mem) (strs : list mem) (tkstr : mem) (env : Z -> AllocEnv) (file_name : text)
    (source : text) : M Outcome :=
  r <- run_lines_raw junk 0 env (chunks source) strs tkstr (init_state file_name) ;;
  match r with
  | Abort st => Ret (mkOutcome EXIT_FAILURE (st_stdout st) (of_data (st_out st)))
  | Next st | Finish st =>
    r2 <- resolve_all file_name (Z.to_nat (un_curr (st_unresolved st))) 0 st ;;
    match r2 with
    | Abort st2 => Ret (mkOutcome EXIT_FAILURE (st_stdout st2) (of_data (st_out st2)))
    | Next st2 | Finish st2 =>
      Ret (mkOutcome EXIT_SUCCESS
                     (st_stdout st2 ++ summary (st_total st2) (tab_count (st_symtab st2)))
                     (of_data (st_out st2)))
    end
  end.
