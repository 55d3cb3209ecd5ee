(** Spec_Text.v -- specification side: the documented source text of gaia: words,
    numerals, tokens, statements.  Written from README.md, the comments of
    src/parser.h and the error messages; it does not use the model. *)
From Verif Require Import Base Spec_Isa.

(** ** Letters *)
Definition letter (c : ascii) : Prop :=
  65 <= code c <= 90 \/ 97 <= code c <= 122.
Definition digit (c : ascii) : Prop := 48 <= code c <= 57.
Definition word_char (c : ascii) : Prop := letter c \/ digit c \/ c = "_"%char.

(** two texts that differ at most in letter case *)
Definition upper (c : ascii) : ascii :=
  if (97 <=? code c) && (code c <=? 122) then chr (code c - 32) else c.
Definition same_but_case (a b : text) : Prop := map upper a = map upper b.

Definition blank (c : ascii) : Prop := c = ch_sp \/ c = ch_tab.

(** the byte 255 is taken for the end of file by the C code (EOF is -1 and char is
    signed); NUL ends a C string *)
Definition line_end (c : ascii) : Prop :=
  c = ch_cr \/ c = ch_nl \/ c = ";"%char \/ c = ch_nul \/ c = chr 255.

(** what may follow a word, a numeral or a directive *)
Definition delimiter (c : ascii) : Prop :=
  blank c \/ line_end c \/ c = ","%char \/ c = "("%char \/ c = ")"%char.

Definition ends (s : text) : Prop := match s with [] => True | c :: _ => line_end c end.
Definition delimited (s : text) : Prop := match s with [] => True | c :: _ => delimiter c end.

(** ** Numerals: positional value *)
Inductive base := Hex | Bin | Dec.
Definition radix (b : base) : Z := match b with Hex => 16 | Bin => 2 | Dec => 10 end.
Definition prefix (b : base) : text :=
  match b with Hex => ["$"%char] | Bin => ["%"%char] | Dec => [] end.

(** [digit_of b c d]: [c] is the digit of value [d] in base [b] *)
Inductive digit_of : base -> ascii -> Z -> Prop :=
| digit_dec c : 48 <= code c <= 57 -> digit_of Dec c (code c - 48)
| digit_bin c : 48 <= code c <= 49 -> digit_of Bin c (code c - 48)
| digit_hex c : 48 <= code c <= 57 -> digit_of Hex c (code c - 48)
| digit_hex_upper c : 65 <= code c <= 70 -> digit_of Hex c (code c - 55)
| digit_hex_lower c : 97 <= code c <= 102 -> digit_of Hex c (code c - 87).

(** [number b ds n]: the digits [ds] (at least one) denote [n] in base [b]: the sum
    of d * radix^k over the digits, k counted from the right *)
Inductive number (b : base) : text -> Z -> Prop :=
| number_one c d : digit_of b c d -> number b [c] d
| number_more c d ds n : digit_of b c d -> number b ds n ->
    number b (c :: ds) (d * radix b ^ Z.of_nat (List.length ds) + n).

(** a numeral as written: prefix and digits *)
Definition numeral (w : text) (n : Z) : Prop :=
  exists b ds, w = prefix b ++ ds /\ number b ds n.

(** ** Tokens *)
Inductive directive := DDefine | DEqu | DOrg | DEnd.
Inductive tok :=
| TLabel (name : text)       (* in upper case *)
| TMnemonic (name : string)
| TNumber (v : Z)
| TX | TY | TA
| THash | TOpen | TClose | TComma | TEqual | TStar
| TDirective (d : directive).

Definition punct (c : ascii) (t : tok) : Prop :=
  (c, t) = ("#"%char, THash) \/ (c, t) = ("("%char, TOpen) \/ (c, t) = (")"%char, TClose) \/
  (c, t) = (","%char, TComma) \/ (c, t) = ("="%char, TEqual) \/ (c, t) = ("*"%char, TStar).

(** the meaning of an identifier, up to case: register, mnemonic or label *)
Inductive ident_means (w : text) : tok -> Prop :=
| means_x : map upper w = T "X" -> ident_means w TX
| means_y : map upper w = T "Y" -> ident_means w TY
| means_a : map upper w = T "A" -> ident_means w TA
| means_mnemonic name : is_name name -> map upper w = T name -> ident_means w (TMnemonic name)
| means_label :
    (forall name, is_name name -> map upper w <> T name) ->
    map upper w <> T "X" -> map upper w <> T "Y" -> map upper w <> T "A" ->
    ident_means w (TLabel (map upper w)).

Definition ident (w : text) : Prop :=
  exists c cs, w = c :: cs /\ letter c /\ Forall word_char cs.

Inductive directive_means (w : text) : directive -> Prop :=
| means_define : map upper w = T ".DEFINE" -> directive_means w DDefine
| means_equ : map upper w = T ".EQU" -> directive_means w DEqu
| means_org : map upper w = T ".ORG" -> directive_means w DOrg
| means_end : map upper w = T ".END" -> directive_means w DEnd.

(** ** Lines of tokens.  [lit n v] says that a numeral of mathematical value [n] is
    accepted with the value [v]; the documented rule is [literal16]. *)
Definition literal16 (n v : Z) : Prop := v = n /\ n <= 0xFFFF.

(** the rule the code follows: the value is accumulated modulo 2^64 *)
Definition literal_wrapping (n v : Z) : Prop := v = n mod 2 ^ 64 /\ v <= 0xFFFF.

Inductive word (lit : Z -> Z -> Prop) : text -> tok -> Prop :=
| word_ident w t : ident w -> (List.length w <= 63)%nat -> ident_means w t -> word lit w t
| word_numeral w n v : numeral w n -> lit n v -> word lit w (TNumber v)
| word_directive w d : directive_means w d -> word lit w (TDirective d).

(** [Lexes lit first off s toks]: the tokens of the text [s], which starts at offset
    [off] of its line, are [toks], each with its offset; [first] tells whether no
    token precedes.  A colon may follow a label that is the first token. *)
Inductive Lexes (lit : Z -> Z -> Prop) : bool -> nat -> text -> list (tok * nat) -> Prop :=
| Lexes_end first off s : ends s -> Lexes lit first off s []
| Lexes_blank first off c s l :
    blank c -> Lexes lit first (S off) s l -> Lexes lit first off (c :: s) l
| Lexes_punct first off c t s l :
    punct c t -> Lexes lit false (S off) s l -> Lexes lit first off (c :: s) ((t, off) :: l)
| Lexes_word first off w t s l :
    word lit w t -> delimited s -> Lexes lit false (off + List.length w) s l ->
    Lexes lit first off (w ++ s) ((t, off) :: l)
| Lexes_label off w name s l :
    word lit w (TLabel name) -> Lexes lit false (off + List.length w + 1) s l ->
    Lexes lit true off (w ++ ":"%char :: s) ((TLabel name, off) :: l).

(** ** Lexical errors.  [Reads] reads some tokens and stops in front of the text
    [s'], where an error may be. *)
Definition colon_next (s : text) : Prop := exists s', s = ":"%char :: s'.

Inductive Reads (lit : Z -> Z -> Prop)
  : bool -> nat -> text -> list (tok * nat) -> bool -> nat -> text -> Prop :=
| Reads_stop first off s : Reads lit first off s [] first off s
| Reads_blank first off c s l first' off' s' :
    blank c -> Reads lit first (S off) s l first' off' s' ->
    Reads lit first off (c :: s) l first' off' s'
| Reads_punct first off c t s l first' off' s' :
    punct c t -> Reads lit false (S off) s l first' off' s' ->
    Reads lit first off (c :: s) ((t, off) :: l) first' off' s'
| Reads_word first off w t s l first' off' s' :
    word lit w t ->
    delimited s \/ (ident w /\ colon_next s /\ ~ (first = true /\ exists n, t = TLabel n)) ->
    Reads lit false (off + List.length w) s l first' off' s' ->
    Reads lit first off (w ++ s) ((t, off) :: l) first' off' s'
| Reads_label off w name s l first' off' s' :
    word lit w (TLabel name) -> Reads lit false (off + List.length w + 1) s l first' off' s' ->
    Reads lit true off (w ++ ":"%char :: s) ((TLabel name, off) :: l) first' off' s'.

Inductive lexical_error := IllegalCharacter | TooBigLiteral | TooLongLabel | IllegalDirective.

(** a character that can start a token *)
Definition starter (c : ascii) : Prop :=
  letter c \/ digit c \/ c = "$"%char \/ c = "%"%char \/ c = "."%char \/ exists t, punct c t.

(** [bad_token lit s e k]: the text [s] starts with no token, the error is [e] and the
    offending character is the [k]th one from the start of [s] *)
Inductive bad_token (lit : Z -> Z -> Prop) : text -> lexical_error -> nat -> Prop :=
| bad_start c s : ~ blank c -> ~ line_end c -> ~ starter c -> code c < 128 ->
    bad_token lit (c :: s) IllegalCharacter 0
| bad_no_digit b s : b <> Dec -> (forall c s' d, s = c :: s' -> ~ digit_of b c d) ->
    bad_token lit (prefix b ++ s) IllegalCharacter 1
| bad_digit b ds n c s : number b ds n -> (forall d, ~ digit_of b c d) -> ~ delimiter c ->
    bad_token lit (prefix b ++ ds ++ c :: s) IllegalCharacter
              (List.length (prefix b) + List.length ds)
| bad_value w n s : numeral w n -> delimited s -> (forall v, ~ lit n v) ->
    bad_token lit (w ++ s) TooBigLiteral 0
| bad_ident_char w c s : ident w -> (List.length w <= 63)%nat ->
    ~ word_char c -> ~ delimiter c -> c <> ":"%char -> code c < 128 ->
    bad_token lit (w ++ c :: s) IllegalCharacter (List.length w)
| bad_ident_length w s : ident w -> List.length w = 64%nat ->
    bad_token lit (w ++ s) TooLongLabel 0
| bad_directive_char w c s : Forall letter w -> (List.length w <= 62)%nat ->
    ~ letter c -> ~ delimiter c -> code c < 128 ->
    bad_token lit ("."%char :: w ++ c :: s) IllegalCharacter (1 + List.length w)
| bad_directive w s : Forall letter w -> (List.length w <= 62)%nat -> delimited s ->
    (forall d, ~ directive_means ("."%char :: w) d) ->
    bad_token lit ("."%char :: w ++ s) IllegalDirective 0
| bad_directive_length w s : Forall letter w -> List.length w = 63%nat ->
    bad_token lit ("."%char :: w ++ s) IllegalDirective 0.

(** the line fails to lex with error [e] at offset [pos] *)
Definition LexFails (lit : Z -> Z -> Prop) (line : text) (e : lexical_error) (pos : nat) : Prop :=
  exists toks first off s k,
    Reads lit true 0 line toks first off s /\ (List.length toks <= 8)%nat /\
    bad_token lit s e k /\ pos = (off + k)%nat.

(** the line has more than eight tokens *)
Definition TooManyTokens (lit : Z -> Z -> Prop) (line : text) : Prop :=
  exists toks first off s, Reads lit true 0 line toks first off s /\ List.length toks = 9%nat.

(** ** Statements: the grammar in the comment of src/parser.h (with the accumulator
    operand, which that comment omits) *)
Inductive expr := Num (v : Z) | Lab (name : text).
Inductive operand :=
| ONone | OAcc
| OImm (e : expr)      (* #e     *)
| ODir (e : expr)      (* e      *)
| ODirX (e : expr)     (* e,X    *)
| ODirY (e : expr)     (* e,Y    *)
| OInd (e : expr)      (* (e)    *)
| OIndX (e : expr)     (* (e,X)  *)
| OIndY (e : expr).    (* (e),Y  *)

Inductive stmt :=
| SEmpty
| SLabel (name : text)                          (* name or name:            *)
| SConst (name : text) (v : Z)                  (* =, .EQU, .DEFINE         *)
| SOrg (v : Z)                                  (* .ORG v, *=v              *)
| SEnd
| SInstr (lab : option text) (mnem : string) (o : operand).

Inductive Expr : tok -> expr -> Prop :=
| Expr_num v : Expr (TNumber v) (Num v)
| Expr_lab n : Expr (TLabel n) (Lab n).

Inductive Operand : list tok -> operand -> Prop :=
| Op_none : Operand [] ONone
| Op_acc : Operand [TA] OAcc
| Op_imm t e : Expr t e -> Operand [THash; t] (OImm e)
| Op_dir t e : Expr t e -> Operand [t] (ODir e)
| Op_dirx t e : Expr t e -> Operand [t; TComma; TX] (ODirX e)
| Op_diry t e : Expr t e -> Operand [t; TComma; TY] (ODirY e)
| Op_ind t e : Expr t e -> Operand [TOpen; t; TClose] (OInd e)
| Op_indx t e : Expr t e -> Operand [TOpen; t; TComma; TX; TClose] (OIndX e)
| Op_indy t e : Expr t e -> Operand [TOpen; t; TClose; TComma; TY] (OIndY e).

Inductive Line : list tok -> stmt -> Prop :=
| Line_empty : Line [] SEmpty
| Line_instr m l o : Operand l o -> Line (TMnemonic m :: l) (SInstr None m o)
| Line_label_instr n m l o :
    Operand l o -> Line (TLabel n :: TMnemonic m :: l) (SInstr (Some n) m o)
| Line_label n : Line [TLabel n] (SLabel n)
| Line_equal n v : Line [TLabel n; TEqual; TNumber v] (SConst n v)
| Line_equ n v : Line [TLabel n; TDirective DEqu; TNumber v] (SConst n v)
| Line_define n v : Line [TDirective DDefine; TLabel n; TNumber v] (SConst n v)
| Line_org v : Line [TDirective DOrg; TNumber v] (SOrg v)
| Line_base v : Line [TStar; TEqual; TNumber v] (SOrg v)
| Line_end : Line [TDirective DEnd] SEnd.

(** the statement a source line denotes *)
Definition line_means (line : text) (s : stmt) : Prop :=
  exists toks, Lexes literal16 true 0 line toks /\ Line (map fst toks) s.

(** a source file: its lines, each ended by a newline (the last one may lack it);
    a line fits in the 127 characters the program reads at a time *)
Definition fits (line : text) : Prop :=
  (List.length line <= 126)%nat /\ ~ In ch_nl line.
Definition join (lines : list text) : text := List.concat (map (fun l => l ++ [ch_nl]) lines).
Definition source_of (lines : list text) (src : text) : Prop :=
  Forall fits lines /\
  (src = join lines \/ exists front last, lines = front ++ [last] /\ last <> [] /\
                                           src = join front ++ last).

(** a line as it stands in the file: with its newline if it has one *)
Definition read_as (line read : text) : Prop := read = line ++ [ch_nl] \/ read = line.

(** what the program sees of a line: a NUL byte hides the rest *)
Fixpoint before_nul (s : text) : text :=
  match s with
  | [] => []
  | c :: s' => if Ascii.eqb c ch_nul then [] else c :: before_nul s'
  end.

(** the line has a byte between $80 and $FE before its first semicolon *)
Definition high_in_code (line : text) : Prop :=
  exists pre c post, line = pre ++ c :: post /\ ~ In ";"%char pre /\ 128 <= code c < 255.

(** the statements a source file denotes *)
Definition program_means (src : text) (p : list stmt) : Prop :=
  exists lines, source_of lines src /\ Forall2 line_means lines p.

(** what gaia says about a lexical error *)
Definition message_of_error (e : lexical_error) : string :=
  match e with
  | IllegalCharacter => "illegal character"%string
  | TooBigLiteral => "value of literal exceeds 2 bytes"%string
  | TooLongLabel => "label exceeds 63 characters"%string
  | IllegalDirective => "illegal assembler directive"%string
  end.
