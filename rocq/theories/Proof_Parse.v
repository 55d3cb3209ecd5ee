(** Proof_Parse.v -- the parser of the model on a lexed line is [compile]. *)
From Verif Require Import Base Proof_Base Model_Opcode Model_Error Model_Lexer Model_SymbolTable
  Model_Parser Model_ForwardRef Model_Generator Spec_Isa Spec_Text Spec_Asm Spec_Link
  Proof_Lex1 Proof_Lex2 Proof_Core.

Definition ty_nth (ts : list tok) (i : nat) : TokenType :=
  match nth_error ts i with Some t => type_of t | None => TOKEN_NULL end.

(** the Lexer struct after lexing *)
Definition lexed (line file : text) (n : Z) (toks : list (tok * nat)) : Lexer :=
  mkLexer (seq_of toks) (Z.of_nat (List.length toks)) None (Some line) n file.

Lemma run_toks_nth : forall toks tk i p, nth_error toks i = Some p ->
  exists tk', nth_error (run_toks tk toks) i = Some (tk_next tk' p).
Proof.
  induction toks as [|q toks IH]; intros tk [|i] p H; cbn in *; try discriminate.
  - injection H as ->. eauto.
  - apply IH. exact H.
Qed.

Lemma seq_of_nth : forall toks i p, nth_error toks i = Some p ->
  exists tk', nth_error (seq_of toks) i = Some (tk_next tk' p).
Proof.
  intros toks i p H. unfold seq_of, pad. rewrite nth_error_app1.
  - apply run_toks_nth, H.
  - rewrite run_toks_length. apply nth_error_Some. congruence.
Qed.

Lemma seq_of_null : forall toks i, (List.length toks <= i < 8)%nat ->
  nth_error (seq_of toks) i = Some init_token.
Proof.
  intros toks i H. unfold seq_of, pad. rewrite nth_error_app2 by (rewrite run_toks_length; lia).
  rewrite run_toks_length. apply nth_error_repeat. lia.
Qed.

Lemma seq_of_length : forall toks, (List.length toks <= 8)%nat -> List.length (seq_of toks) = 8%nat.
Proof. intros. apply pad_length. rewrite run_toks_length. exact H. Qed.

Lemma seq_of_cases : forall toks i, (List.length toks <= 8)%nat -> (i < 8)%nat ->
  exists tk, nth_error (seq_of toks) i = Some tk /\
    ((nth_error toks i = None /\ tk = init_token) \/
     (exists p tk', nth_error toks i = Some p /\ tk = tk_next tk' p)).
Proof.
  intros toks i L H. destruct (nth_error toks i) as [p|] eqn:E.
  - destruct (seq_of_nth toks i p E) as (tk' & E'). exists (tk_next tk' p). split; [exact E'|]. right. eauto.
  - exists init_token. split; [|left; auto]. apply seq_of_null. apply nth_error_None in E. lia.
Qed.

Lemma type_at_lexed : forall line file n toks i, (List.length toks <= 8)%nat -> (i < 8)%nat ->
  type_at (lexed line file n toks) (Z.of_nat i) = Ret (ty_nth (map fst toks) i).
Proof.
  intros line file n toks i L H. unfold type_at, lexed, lx_seq.
  destruct (seq_of_cases toks i L H) as (tk & E & C).
  assert (get (seq_of toks) (Z.of_nat i) = Ret tk) as ->.
  { apply get_ret. rewrite Nat2Z.id. split; [lia|exact E]. }
  cbn [bind]. unfold ty_nth. rewrite nth_error_map.
  destruct C as [[-> ->]|(p & tk' & -> & ->)]; reflexivity.
Qed.

(** what parse_line leaves in the struct: an origin is copied to the first token *)
Definition parsed (lexer : Lexer) (c : cstmt) : M Lexer :=
  match c with COrg v => set_value_at lexer 0 v | _ => Ret lexer end.

Lemma value_at_number : forall line file n toks i v, (List.length toks <= 8)%nat -> (i < 8)%nat ->
  nth_error (map fst toks) i = Some (TNumber v) ->
  value_at (lexed line file n toks) (Z.of_nat i) = Ret v.
Proof.
  intros line file n toks i v L H E. unfold value_at, lexed, lx_seq.
  destruct (seq_of_cases toks i L H) as (tk & E1 & C).
  assert (get (seq_of toks) (Z.of_nat i) = Ret tk) as ->.
  { apply get_ret. rewrite Nat2Z.id. split; [lia|exact E1]. }
  cbn [bind]. rewrite nth_error_map in E.
  destruct C as [[C _]|(p & tk' & C & ->)]; rewrite C in E; [discriminate|].
  cbn in E. injection E as E. unfold tk_next. rewrite E. reflexivity.
Qed.

Lemma parse_line_compile : forall line file n toks, (List.length toks <= 8)%nat ->
  let lexer := lexed line file n toks in
  parse_line lexer =
  match compile (map fst toks) with
  | inl c => l <- parsed lexer c ;; Ret (PARSER_SUCCESS, l, [])
  | inr (base, i) => syntax_error lexer (if base then ERROR_ILLEGAL_BASE else ERROR_ILLEGAL_SEQUENCE)
                                  (Z.of_nat i)
  end.
Proof.
  intros line file n toks L lexer.
  pose proof (type_at_lexed line file n toks) as H.
  pose proof (value_at_number line file n toks) as V.
  fold lexer in H, V.
  pose proof (H 0%nat L ltac:(lia)) as H0. pose proof (H 1%nat L ltac:(lia)) as H1.
  pose proof (H 2%nat L ltac:(lia)) as H2. pose proof (H 3%nat L ltac:(lia)) as H3.
  pose proof (H 4%nat L ltac:(lia)) as H4. pose proof (H 5%nat L ltac:(lia)) as H5.
  pose proof (H 6%nat L ltac:(lia)) as H6. pose proof (H 7%nat L ltac:(lia)) as H7.
  pose proof (fun v => V 1%nat v L ltac:(lia)) as V1. pose proof (fun v => V 2%nat v L ltac:(lia)) as V2.
  clear H V. cbn [Z.of_nat Pos.of_succ_nat Pos.succ] in H0, H1, H2, H3, H4, H5, H6, H7, V1, V2.
  set (ts := map fst toks) in *.
  clearbody ts.
  unfold parse_line, parse_label_tree, parse_instr_tree, parse_directive_tree, parse_base_tree,
    parse_indirect_operand_tree, accept.
  cbn zeta.
  repeat progress (
    try change (0 + 1) with 1;
    try change (1 + 1) with 2;
    try change (2 + 1) with 3;
    try change (3 + 1) with 4;
    try change (4 + 1) with 5;
    try change (5 + 1) with 6;
    try change (6 + 1) with 7;
    try change (7 + 1) with 8;
    try change (0 + 2) with 2;
    try change (1 + 2) with 3;
    try change (2 + 2) with 4;
    try change (3 + 2) with 5;
    try change (4 + 2) with 6;
    try change (5 + 2) with 7;
    try change (6 + 2) with 8;
    try change (7 + 2) with 9;
    try change (0 + 3) with 3;
    try change (1 + 3) with 4;
    try change (2 + 3) with 5;
    try change (3 + 3) with 6;
    try change (4 + 3) with 7;
    try change (5 + 3) with 8;
    try change (6 + 3) with 9;
    try change (7 + 3) with 10;
    try change (1 - 1) with 0).
  rewrite H0, H1, H2, H3, H4, H5, H6, H7. cbn [bind].
  clear H0 H1 H2 H3 H4 H5 H6 H7 L. clearbody lexer.
  assert (P : forall c, match c with COrg _ => False | _ => True end -> parsed lexer c = Ret lexer)
    by (intros [] C; [reflexivity|reflexivity|reflexivity|destruct C|reflexivity|reflexivity]).
  assert (PO : forall v, parsed lexer (COrg v) = set_value_at lexer 0 v) by reflexivity.
  assert (PI : forall o t, parsed lexer (cinstr o t) = Ret lexer) by reflexivity.
  generalize dependent (parsed lexer). intros parsed' P PO PI.
  generalize (syntax_error lexer). intros SE.
  generalize dependent (value_at lexer). intros value_at' V1 V2.
  generalize dependent (set_value_at lexer). intros set' PO.
  clear toks.
  Ltac red1 := cbn [ty_nth nth_error type_of ty_eqb is_operand is_directive orb compile
                    comp_operand expr_tok bind Z.of_nat Nat.add Pos.of_succ_nat Pos.succ bad TokenType_eq_dec TokenType_rec TokenType_rect sumbool_rec sumbool_rect] in *.
  Ltac fin P PO PI V1 V2 :=
    first [ reflexivity | rewrite PI; reflexivity | rewrite P by exact I; reflexivity
          | rewrite (V1 _ eq_refl), PO; cbn [bind]; reflexivity
          | rewrite (V2 _ eq_refl), PO; cbn [bind]; reflexivity ].
  unfold ty_nth.
  destruct ts as [|[| | | | | | | | | | | |[]] ts]; red1; try fin P PO PI V1 V2.
  all: try (destruct ts as [|[| | | | | | | | | | | |[]] ts]; red1; try fin P PO PI V1 V2).
  all: try (destruct ts as [|[| | | | | | | | | | | |[]] ts]; red1; try fin P PO PI V1 V2).
  all: try (destruct ts as [|[| | | | | | | | | | | |[]] ts]; red1; try fin P PO PI V1 V2).
  all: try (destruct ts as [|[| | | | | | | | | | | |[]] ts]; red1; try fin P PO PI V1 V2).
  all: try (destruct ts as [|[| | | | | | | | | | | |[]] ts]; red1; try fin P PO PI V1 V2).
  all: try (destruct ts as [|[| | | | | | | | | | | |[]] ts]; red1; try fin P PO PI V1 V2).
  all: try (destruct ts as [|[| | | | | | | | | | | |[]] ts]; red1; try fin P PO PI V1 V2).
Qed.
