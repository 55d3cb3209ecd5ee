(** Spec_Total.v -- specification side: what becomes of every source text, whatever its bytes. *)
From Verif Require Import Base Model_Main Spec_Isa Spec_Text Spec_Asm Spec_Diag Spec_Grammar Spec_Report Spec_Left.

(** ** Pieces.  The source is read in pieces: a line with its newline, but at most 127 bytes at a time; a NUL byte hides
    the rest of its piece. *)
Inductive cut : text -> list text -> Prop :=
| cut_none : cut [] []
| cut_line l rest ls : ~ In ch_nl l -> (List.length l <= 126)%nat -> cut rest ls -> cut (l ++ ch_nl :: rest) ((l ++ [ch_nl]) :: ls)
| cut_long l rest ls : ~ In ch_nl l -> List.length l = 127%nat -> cut rest ls -> cut (l ++ rest) (l :: ls)
| cut_last l : ~ In ch_nl l -> (0 < List.length l <= 126)%nat -> cut l [l].

Definition pieces (src : text) (l : list text) : Prop := exists cs, cut src cs /\ l = map before_nul cs.

(** ** Statements.  Besides the lines of the grammar, the program takes lines with more tokens behind an operand indexed
    with X or Y. The last mnemonic of the line counts; an X among the tokens makes the index X; a bracket makes the
    operand indirect; with # or A among them no addressing mode is left. *)
Inductive understood :=
| Statement (s : stmt)
| NoMode (lab : option text) (m : string) (e : expr).

Fixpoint last_name (m : string) (l : list tok) : string :=
  match l with
  | [] => m
  | TMnemonic m' :: l' => last_name m' l'
  | _ :: l' => last_name m l'
  end.

Definition has_tok (p : tok -> bool) (l : list tok) : bool := existsb p l.
Definition is_x (t : tok) : bool := match t with TX => true | _ => false end.
Definition is_open_bracket (t : tok) : bool := match t with TOpen => true | _ => false end.
Definition is_hash_or_a (t : tok) : bool := match t with THash | TA => true | _ => false end.

Definition with_more (lab : option text) (m : string) (e : expr) (register : tok) (more : list tok) : understood :=
  if has_tok is_hash_or_a more then NoMode lab (last_name m more) e
  else
    let x := has_tok is_x (register :: more) in
    Statement (SInstr lab (last_name m more)
      (if has_tok is_open_bracket more then if x then OIndX e else OIndY e else if x then ODirX e else ODirY e)).

Inductive Understood : list tok -> understood -> Prop :=
| Understood_line ts s : Line ts s -> Understood ts (Statement s)
| Understood_more lab m t e register more : Expr t e -> register = TX \/ register = TY -> more <> [] ->
    Understood ((match lab with Some n => [TLabel n] | None => [] end) ++ [TMnemonic m; t; TComma; register] ++ more)
               (with_more lab m e register more).

(** what it does in line [n] *)
Definition do_understood (n : Z) (st : dstate) (u : understood) : dstate + (string * place) :=
  match u with
  | Statement s => diag_stmt AsBuilt n st s
  | NoMode lab m e =>
    match (match lab with Some l => diag_stmt AsBuilt n st (SLabel l) | None => inl st end) with
    | inr err => inr err
    | inl st' =>
      if unresolved (d_env st') (ODir e) && negb (is_branch_name m || is_jump_name m)
      then inr ("illegal forward reference"%string, AtOperand) else inr ("illegal addressing mode"%string, Nowhere)
    end
  end.

(** where the arrow points: at the first label of the line, or at the first one behind its first mnemonic *)
Fixpoint behind_mnemonic (toks : list (tok * nat)) : list (tok * nat) :=
  match toks with
  | [] => []
  | (TMnemonic _, _) :: l => l
  | _ :: l => behind_mnemonic l
  end.
Definition place_in (toks : list (tok * nat)) (w : place) : option nat :=
  match w with
  | Nowhere => None
  | AtLabel => option_map snd (hd_error (filter is_label toks))
  | AtOperand => option_map snd (hd_error (filter is_label (behind_mnemonic toks)))
  end.

Definition lexical_message (e : lexical_error) : string :=
  match e with
  | IllegalCharacter => "illegal character"
  | TooBigLiteral => "value of literal exceeds 2 bytes"
  | TooLongLabel => "label exceeds 63 characters"
  | IllegalDirective => "illegal assembler directive"
  end.

(** a byte from $80 to $FE where a character of a token is expected *)
Definition high_byte (c : ascii) : Prop := 128 <= code c < 255.
Inductive high_here : text -> Prop :=
| high_first c s : high_byte c -> high_here (c :: s)
| high_in_word w c s : ident w -> (List.length w <= 63)%nat -> high_byte c -> high_here (w ++ c :: s)
| high_in_directive w c s : Forall letter w -> (List.length w <= 62)%nat -> high_byte c -> high_here ("."%char :: w ++ c :: s).
Definition HighByte (line : text) : Prop :=
  exists toks first off s, Reads literal_wrapping true 0 line toks first off s /\ (List.length toks <= 8)%nat /\ high_here s.

(** ** Reading from piece number [n] on: the state reached and how it ended *)
Inductive halt :=
| AtEnd                                                     (* no more pieces, or .END *)
| Rejected (n : Z) (message : string) (pos : option nat)    (* an error with a report *)
| Dropped                                                   (* failure without a report *)
| Lost.                                                     (* undefined behaviour *)

Definition scanned (line : text) (toks : list (tok * nat)) : Prop :=
  Lexes literal_wrapping true 0 line toks /\ (List.length toks <= 8)%nat.

Inductive reads_on : Z -> dstate -> list text -> dstate -> halt -> Prop :=
| on_done n st : reads_on n st [] st AtEnd
| on_end n st line rest toks : scanned line toks -> Understood (map fst toks) (Statement SEnd) -> reads_on n st (line :: rest) st AtEnd
| on_next n st line rest toks u st' st2 h : scanned line toks -> Understood (map fst toks) u -> u <> Statement SEnd ->
    do_understood n st u = inl st' -> reads_on (n + 1) st' rest st2 h -> reads_on n st (line :: rest) st2 h
| on_error n st line rest toks u m w : scanned line toks -> Understood (map fst toks) u ->
    do_understood n st u = inr (m, w) -> reads_on n st (line :: rest) st (Rejected n m (place_in toks w))
| on_syntax n st line rest toks i : scanned line toks -> departs_at (map fst toks) i -> ~ trailing_junk (map fst toks) ->
    reads_on n st (line :: rest) st (Rejected n (syntax_message (map fst toks)) (option_map snd (nth_error toks i)))
| on_lexical n st line rest e pos : LexFails literal_wrapping line e pos ->
    reads_on n st (line :: rest) st (Rejected n (lexical_message e) (Some pos))
| on_many n st line rest : TooManyTokens literal_wrapping line -> reads_on n st (line :: rest) st Dropped
| on_high n st line rest : HighByte line -> reads_on n st (line :: rest) st Lost.

(** ** The result of the run of the source [src] in pieces [l], when its reading ends in [st] and [h] *)
Definition result (file : text) (l : list text) (st : dstate) (h : halt) (r : M Outcome) : Prop :=
  let read := first_writes 0 (d_done st) in
  match h with
  | AtEnd =>
    match complete AsBuilt (d_env st) (d_done st) with
    | inl _ => exists o, r = Ret o /\ exit_code o = 0 /\
        SuccessReport (total_size (d_done st)) (Z.of_nat (List.length (d_env st))) (stdout o) /\
        is_image (read ++ completed AsBuilt (d_env st) (d_done st)) (binary o)
    | inr (n, m) => exists o line toks, r = Ret o /\ exit_code o = 1 /\ nth_error l (Z.to_nat (n - 1)) = Some line /\ scanned line toks /\
        Report file n m line (place_in toks AtOperand) (stdout o) /\
        is_image (read ++ completed AsBuilt (d_env st) (d_done st)) (binary o)
    end
  | Rejected n m pos => exists o line, r = Ret o /\ exit_code o = 1 /\ nth_error l (Z.to_nat (n - 1)) = Some line /\
      Report file n m line pos (stdout o) /\ is_image read (binary o)
  | Dropped => exists o, r = Ret o /\ exit_code o = 1 /\ stdout o = [] /\ is_image read (binary o)
  | Lost => exists u, r = Undef u
  end.
