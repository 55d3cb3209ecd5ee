(** Prop_Syntax.v -- C11 (the accepted lines are those of the grammar), C33 (the arrow),
    C45 (where a syntax error is reported), C46 (where a lexical error is reported). *)
From Verif Require Import Base Proof_Base Model_Opcode Model_Error Model_Lexer Model_SymbolTable
  Model_Parser Model_ForwardRef Model_Generator Model_Main Spec_Isa Spec_Text Spec_Asm Spec_Report Spec_Grammar Spec_Prog Spec_Link
  Proof_Error Proof_Opcode Proof_Lex1 Proof_Lex2 Proof_Fun Proof_Core Proof_Parse Proof_Sim1 Proof_Sim2 Proof_Run Proof_Source Proof_Whole Proof_Grammar Proof_At
  Proof_Prog Proof_Check Proof_Eight Prop_State Prop_Lines.

(** ** C11: one line, in any state of the assembler.  Its tokens are derivable from the
    grammar, or it is of the one form accepted besides (see C11_refuted): then it is
    accepted.  Else the error is reported at the token where it departs from the grammar. *)
Theorem C11_grammar_partial : forall line file n lx0 tk0 ins0 toks,
  List.length (lx_seq lx0) = 8%nat -> lx_file lx0 = file ->
  Lexes literal_wrapping true 0 line toks -> (List.length toks <= 8)%nat ->
  exists lx tk ins, lex_line line lx0 tk0 ins0 n = Ret (LEXER_SUCCESS, lx, tk, ins, []) /\
    ((exists lx', parse_line lx = Ret (PARSER_SUCCESS, lx', [])) /\
       ((exists s, Line (map fst toks) s) \/ trailing_junk (map fst toks)) \/
     (exists code lx' out i, parse_line lx = Ret (code, lx', out) /\ code < 0 /\
        Report file n (syntax_message (map fst toks)) line (option_map snd (nth_error toks i)) out /\
        departs_at (map fst toks) i /\ ~ (exists s, Line (map fst toks) s) /\ ~ trailing_junk (map fst toks))).
Proof.
  intros line file n lx0 tk0 ins0 toks H8 Hf L N. do 3 eexists. split; [apply (lex_line_ok line file n lx0 tk0 ins0 toks H8 Hf L N)|].
  fold (lexed line file n toks). pose proof (parse_line_compile line file n toks N) as P. cbv zeta in P. rewrite P. clear P.
  pose proof (lexed_ok line file n toks N) as K.
  destruct (compile (map fst toks)) as [c|[b i]] eqn:C.
  - left. split; [|eapply compile_accepts; exact C].
    destruct c; cbn [parsed bind]; try (eexists; reflexivity).
    destruct (set_value_ok _ _ _ _ _ 0 v K ltac:(lia)) as (lx' & E & _). change (Z.of_nat 0) with 0 in E. rewrite E. eexists. reflexivity.
  - right. destruct (compile_inr _ _ _ C) as [Hi Hn]. destruct (compile_departs _ _ _ C) as [D M].
    destruct (syntax_error_ok _ _ _ _ _ (if b then ERROR_ILLEGAL_BASE else ERROR_ILLEGAL_SEQUENCE)
                 (if b then "illegal base" else "illegal syntax") i K) as (out & Eo & Ro); try assumption.
    { intros t q Hin. eapply Lexes_solid; eauto. }
    { intros ->. apply Hn. reflexivity. }
    { destruct b; reflexivity. }
    rewrite Eo. do 4 eexists. split; [reflexivity|]. split; [destruct b; reflexivity|]. split; [rewrite <- M; exact Ro|].
    split; [exact D|]. split.
    + intros (s & G). destruct (Line_compiles _ _ G) as (c & E). congruence.
    + intros G. destruct (junk_compiles _ G) as (c & E). congruence.
Qed.

(** the grammar as documented is not what is accepted: behind an operand indexed with X or
    Y anything may stand, and a mnemonic there replaces that of the instruction *)
Theorem C11_refuted : exists file line toks o, Lexes literal16 true 0 line toks /\ (forall s, ~ Line (map fst toks) s) /\
  gaia file (line ++ [ch_nl]) = Ret o /\ exit_code o = 0 /\ binary o = [0x95; 0x10].
Proof.
  exists (T "a.asm"), (T "LDA $10,X STA"), [(TMnemonic "LDA", 0%nat); (TNumber 16, 4%nat); (TComma, 7%nat); (TX, 8%nat); (TMnemonic "STA", 10%nat)].
  eexists. split; [apply tokens_ok; vm_compute; reflexivity|]. split.
  - intros s H. inversion H; subst. match goal with H : Operand _ _ |- _ => inversion H end.
  - split; [vm_compute; reflexivity|]. split; reflexivity.
Qed.

(** ** C33: the arrow is in the column of the character at the offset [p] of the line: the
    column where that character is shown when it is shown, on a terminal with tab stops
    every 8 columns *)
Lemma shown_prefix : forall line shown p, shown_as line shown -> (p <= List.length shown)%nat -> firstn p line = firstn p shown.
Proof.
  intros line shown p (trail & -> & _) H. rewrite firstn_app. replace (p - List.length shown)%nat with 0%nat by lia. cbn [firstn]. apply app_nil_r.
Qed.

Theorem C33_arrow : forall line code p file n m, (exists c, In c line /\ ~ trailing c) -> (p <= List.length line)%nat ->
  message_of code = Some m ->
  exists shown head, print_error (Some line) code (Some p) file n =
      Ret (head ++ shown ++ [ch_nl] ++ repeat ch_sp (column (firstn p line)) ++ T "^~~~~~" ++ [ch_nl; ch_nl]) /\
    shown_as line shown /\ ((p <= List.length shown)%nat -> column (firstn p line) = column (firstn p shown)).
Proof.
  intros line code p file n m V P Hm. destruct (print_error_report line code (Some p) file n m V P Hm) as (out & E & (shown & S & ->)).
  exists shown, (file ++ T ":" ++ decimal n ++ T ": ERROR: " ++ T m ++ [ch_nl]). split; [|split; [exact S|]].
  - etransitivity; [exact E|]. rewrite <- !app_assoc. reflexivity.
  - intro Hp. rewrite (shown_prefix _ _ _ S Hp). reflexivity.
Qed.

(** ** C45: a syntax error, in a program *)
Theorem C45_syntax_error : forall file pre line post src st toks i, in_front file pre line post src st ->
  Lexes literal_wrapping true 0 line toks -> (List.length toks <= 8)%nat ->
  departs_at (map fst toks) i -> ~ trailing_junk (map fst toks) ->
  rejected file pre line src (syntax_message (map fst toks)) (option_map snd (nth_error toks i)).
Proof.
  intros file pre line post src st toks i (HS & HB & HR & p & HM & HE) L N D J.
  destruct (read_state _ _ _ _ HR HM HE) as (sd & E & _).
  destruct (at_syntax_error file pre line post src p sd HS HM E HB toks i L N D J) as (o & A & B & C & _). exists o. auto.
Qed.

(** a line that is not of the grammar departs from it at one place *)
Theorem C45_one_place : forall ts, (forall s, ~ Line ts s) -> ~ trailing_junk ts ->
  exists i, departs_at ts i /\ forall j, departs_at ts j -> j = i.
Proof.
  intros ts HN HJ. destruct (compile ts) as [c|[b i]] eqn:C.
  - destruct (compile_accepts _ _ C) as [(s & G)|G]; [destruct (HN s G)|contradiction].
  - destruct (compile_departs _ _ _ C) as [D _]. exists i. split; [exact D|]. intros j Hj. eapply departs_unique; eauto.
Qed.

(** ** C46: a lexical error, in a program *)
Theorem C46_lexical_error : forall file pre line post src st e pos, in_front file pre line post src st ->
  LexFails literal_wrapping line e pos ->
  rejected file pre line src (message_of_error e) (Some pos).
Proof.
  intros file pre line post src st e pos (HS & HB & HR & p & HM & HE) L.
  destruct (read_state _ _ _ _ HR HM HE) as (sd & E & _).
  destruct (at_lex_error file pre line post src p sd HS HM E HB e pos L) as (o & A & B & C & _). exists o. auto.
Qed.

(** ** The hypotheses are met *)
Lemma departs_check : forall ts b i, compile ts = inr (b, i) -> departs_at ts i /\ ~ trailing_junk ts.
Proof.
  intros ts b i H. split; [eapply compile_departs; exact H|]. intro J. destruct (junk_compiles _ J) as (c & E). congruence.
Qed.

Definition pre_demo : list text := [T "L: NOP"; T "K = 5"].
Example C45_example : exists file pre line post src st toks i, in_front file pre line post src st /\
  Lexes literal_wrapping true 0 line toks /\ (List.length toks <= 8)%nat /\
  departs_at (map fst toks) i /\ ~ trailing_junk (map fst toks) /\ nth_error toks i = Some (TComma, 10%nat).
Proof.
  set (line := T " JMP (L), , ").
  destruct (front_check (T "a.asm") pre_demo line [T "BRK"] _ _ ltac:(vm_compute; reflexivity) ltac:(vm_compute; reflexivity)
    ltac:(vm_compute; reflexivity) ltac:(vm_compute; reflexivity)) as (st & F & _).
  do 5 eexists. exists st. do 2 eexists. split; [exact F|]. split; [apply Lexes_wr, tokens_ok; vm_compute; reflexivity|]. split; [cbn; lia|].
  assert (C : compile [TMnemonic "JMP"; TOpen; TLabel (T "L"); TClose; TComma; TComma] = inr (false, 5%nat)) by reflexivity.
  destruct (departs_check _ _ _ C) as [D J]. split; [exact D|]. split; [exact J|reflexivity].
Qed.

Example C46_example : exists file pre line post src st e pos, in_front file pre line post src st /\ LexFails literal_wrapping line e pos /\ pos = 6%nat.
Proof.
  set (line := T " LDX $g").
  destruct (front_check (T "a.asm") pre_demo line [T "BRK"] _ _ ltac:(vm_compute; reflexivity) ltac:(vm_compute; reflexivity)
    ltac:(vm_compute; reflexivity) ltac:(vm_compute; reflexivity)) as (st & F & _).
  do 5 eexists. exists st, IllegalCharacter, 6%nat. split; [exact F|]. split; [|reflexivity].
  exists [(TMnemonic "LDX", 1%nat)], false, 5%nat, (T "$g"), 1%nat. split; [|split; [cbn; lia|split; [|reflexivity]]].
  - unfold line. apply Reads_blank; [left; reflexivity|].
    apply (Reads_word _ _ _ (T "LDX") (TMnemonic "LDX") (T " $g")).
    + apply word_ident; [exists "L"%char, (T "DX"); split; [reflexivity|]; split; [left; vm_compute; split; discriminate|]|cbn; lia|].
      * apply Forall_cons; [left; left; vm_compute; split; discriminate|]. apply Forall_cons; [left; left; vm_compute; split; discriminate|apply Forall_nil].
      * apply means_mnemonic; [|reflexivity]. exists IMM, 0xA2, 2. apply listed_in. reflexivity.
    + left. left. left. reflexivity.
    + apply Reads_blank; [left; reflexivity|]. apply Reads_stop.
  - apply (bad_no_digit _ Hex (T "g")); [discriminate|]. intros c s' d E K. injection E as <- <-. inversion K; subst; revert H; vm_compute; intros [A B]; auto.
Qed.
