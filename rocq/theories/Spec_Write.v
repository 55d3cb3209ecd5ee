(** Spec_Write.v -- specification side: a way to write every program down.  [write] is a plain formatter: one blank where
    two words would run together, numbers as $ and four digits, = for constants. *)
From Verif Require Import Base Spec_Isa Spec_Text Spec_Listing.

(** ** Programs that can be written *)
(** a label: at most 63 letters (capital ones: the case of a source is ignored), digits and underscores, the first one a
    letter; no mnemonic and no register *)
Definition legal_name (n : text) : Prop :=
  ident n /\ (List.length n <= 63)%nat /\ map upper n = n /\ (forall m, is_name m -> n <> T m) /\ n <> T "X" /\ n <> T "Y" /\ n <> T "A".

Definition legal_expr (e : expr) : Prop := match e with Num v => 0 <= v <= 0xFFFF | Lab n => legal_name n end.
Definition legal_operand (o : operand) : Prop :=
  match o with
  | ONone | OAcc => True
  | OImm e | ODir e | ODirX e | ODirY e | OInd e | OIndX e | OIndY e => legal_expr e
  end.

(** ** The formatter *)
Definition spell (t : tok) : text :=
  match t with
  | TLabel n => n
  | TMnemonic m => T m
  | TNumber v => "$"%char :: hex4 (v mod 256) (v / 256)
  | TX => T "X" | TY => T "Y" | TA => T "A"
  | THash => T "#" | TOpen => T "(" | TClose => T ")" | TComma => T "," | TEqual => T "=" | TStar => T "*"
  | TDirective DDefine => T ".DEFINE" | TDirective DEqu => T ".EQU" | TDirective DOrg => T ".ORG" | TDirective DEnd => T ".END"
  end.

Definition is_word (t : tok) : bool :=
  match t with TLabel _ | TMnemonic _ | TNumber _ | TX | TY | TA | TDirective _ => true | _ => false end.
Definition tight (t : tok) : bool := match t with TOpen | TClose | TComma => true | _ => false end.

(** a blank behind a word, but not in front of a bracket or a comma *)
Definition gap (t : tok) (rest : list tok) : text :=
  match rest with [] => [] | t' :: _ => if is_word t && negb (tight t') then [ch_sp] else [] end.
Fixpoint spelled (ts : list tok) : text :=
  match ts with [] => [] | t :: ts' => spell t ++ gap t ts' ++ spelled ts' end.

Definition expr_tok (e : expr) : tok := match e with Num v => TNumber v | Lab n => TLabel n end.
Definition operand_toks (o : operand) : list tok :=
  match o with
  | ONone => [] | OAcc => [TA]
  | OImm e => [THash; expr_tok e] | ODir e => [expr_tok e]
  | ODirX e => [expr_tok e; TComma; TX] | ODirY e => [expr_tok e; TComma; TY]
  | OInd e => [TOpen; expr_tok e; TClose]
  | OIndX e => [TOpen; expr_tok e; TComma; TX; TClose]
  | OIndY e => [TOpen; expr_tok e; TClose; TComma; TY]
  end.
Definition stmt_toks (s : stmt) : list tok :=
  match s with
  | SEmpty => []
  | SLabel n => [TLabel n]
  | SConst n v => [TLabel n; TEqual; TNumber v]
  | SOrg v => [TDirective DOrg; TNumber v]
  | SEnd => [TDirective DEnd]
  | SInstr lab m o => (match lab with Some n => [TLabel n] | None => [] end) ++ TMnemonic m :: operand_toks o
  end.
Definition write (s : stmt) : text := spelled (stmt_toks s).
Definition formatted (p : list stmt) : text := join (map write p).

(** a statement with two long labels may not fit on a line *)
Definition legal (s : stmt) : Prop :=
  (List.length (write s) <= 126)%nat /\
  match s with
  | SEmpty | SEnd => True
  | SLabel n => legal_name n
  | SConst n v => legal_name n /\ 0 <= v <= 0xFFFF
  | SOrg v => 0 <= v <= 0xFFFF
  | SInstr lab m o => (forall n, lab = Some n -> legal_name n) /\ is_name m /\ legal_operand o
  end.
