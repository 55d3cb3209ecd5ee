(** Proof_Alloc.v -- an allocation failure can only turn a run into a failed one. *)
From Verif Require Import Base Proof_Base Model_Opcode Model_Error Model_Lexer Model_SymbolTable
  Model_Parser Model_ForwardRef Model_Generator Model_Main Proof_Run.

(** [r] is [r0], or an abort *)
Definition weaker (r r0 : M LineRes) : Prop := r = r0 \/ exists st, r = Ret (Abort st).

Lemma weaker_refl : forall r, weaker r r.
Proof. left; reflexivity. Qed.

Lemma insert_weaker : forall rs ss tab n v,
  insert_symbol rs ss tab n v = insert_symbol true true tab n v \/
  exists tab', insert_symbol rs ss tab n v = Ret (ERROR_MEMORY_ALLOCATION_FAIL, tab').
Proof.
  intros rs ss tab n v. unfold insert_symbol.
  destruct (int_of (tab_count tab + 1)) as [c1|u|]; cbn [bind]; auto.
  destruct (int_of (c1 * 100)) as [sc|u|]; cbn [bind]; auto.
  destruct (50 <? Z.quot sc (tab_size tab)).
  - destruct rs.
    + destruct ss; [left; reflexivity|].
      destruct (resize_symbols true tab) as [[t|]|u|]; cbn [bind negb]; eauto.
    + unfold resize_symbols. destruct (int_of (tab_size tab * 2)) as [tw|u|]; cbn [bind]; auto.
      destruct (next_prime tw) as [nx|u|]; cbn [bind negb]; eauto.
  - cbn [bind]. destruct ss; cbn [negb]; eauto.
Qed.

Lemma declare_weaker : forall rs ss lx tab i fd v,
  declare rs ss lx tab i fd v = declare true true lx tab i fd v \/
  exists l' t' o, declare rs ss lx tab i fd v = Ret (ERROR_MEMORY_ALLOCATION_FAIL, l', t', o).
Proof.
  intros. unfold declare. destruct (negb (fd =? ERROR_SYMBOL_NOT_FOUND)); auto.
  destruct (set_value_at lx i v) as [l1|u|]; cbn [bind]; auto.
  destruct (get (lx_seq l1) i) as [lab|u|]; cbn [bind]; auto.
  destruct (insert_weaker rs ss tab (tk_str lab) (tk_value lab)) as [->|(t' & ->)]; auto.
  right. cbn [bind]. eauto.
Qed.

Lemma declaration_weaker : forall rs ss lx tab pc,
  parse_label_declaration rs ss lx tab pc = parse_label_declaration true true lx tab pc \/
  exists l' t' o, parse_label_declaration rs ss lx tab pc = Ret (ERROR_MEMORY_ALLOCATION_FAIL, l', t', o).
Proof.
  intros. unfold parse_label_declaration.
  repeat match goal with |- context [bind ?m _] =>
    match m with
    | declare _ _ _ _ _ _ _ => fail 1
    | _ => destruct m as [|u|]; cbn [bind]; [|left; reflexivity|left; reflexivity]
    end end.
  all: repeat match goal with |- context [if ?b then _ else _] => destruct b end;
    try (left; reflexivity); try apply declare_weaker.
  all: try (destruct (value_at lx 2) as [|u|]; cbn [bind]; auto; apply declare_weaker).
Qed.

Lemma create_ref_fail : forall b i t s pc n, create_forward_ref false b i t s pc n = Ret None.
Proof. reflexivity. Qed.

Lemma add_ref_weaker : forall g u r, add_forward_ref g u r = add_forward_ref true u r \/
  add_forward_ref g u r = Ret (ERROR_MEMORY_ALLOCATION_FAIL, u).
Proof.
  intros [] u r; auto. unfold add_forward_ref. destruct (un_curr u =? un_size u - 1); auto.
  unfold resize_unresolved. destruct (int_of (2 * un_size u)) as [z|x|]; cbn [bind negb]; auto.
Qed.

Lemma instruction_weaker : forall env b st,
  weaker (process_instruction env b st) (process_instruction alloc_all b st).
Proof.
  intros env b st. unfold process_instruction.
  destruct (find_operand (st_lexer st)) as [op|u|]; cbn [bind]; try apply weaker_refl.
  destruct (parse_operand (st_lexer st) (st_instr st) op (st_symtab st)) as [[[os lx1] out1]|u|]; cbn [bind];
    try apply weaker_refl.
  destruct (IS_ERROR os); [apply weaker_refl|].
  destruct (parse_addr_mode lx1 (st_instr st) op os) as [[[rc ins2] out2]|u|]; cbn [bind]; try apply weaker_refl.
  destruct (rc =? FORWARD_REFERENCE); [|apply weaker_refl].
  destruct op as [i|]; [|apply weaker_refl].
  destruct (get (lx_seq lx1) i) as [tok|u|]; cbn [bind]; try apply weaker_refl.
  destruct (ok_ref env).
  2:{ right. cbn [create_forward_ref negb bind]. eauto. }
  cbn [alloc_all ok_ref ok_grow].
  destruct (create_forward_ref true b ins2 tok os (st_pc st) (st_line_num st)) as [[r|]|u|]; cbn [bind];
    try apply weaker_refl.
  destruct (add_ref_weaker (ok_grow env) (st_unresolved st) r) as [-> | ->]; [apply weaker_refl|].
  right. cbn [bind]. change (IS_ERROR ERROR_MEMORY_ALLOCATION_FAIL) with true. cbn [bind]. eauto.
Qed.

Lemma line_weaker : forall env b st, weaker (process_line env b st) (process_line alloc_all b st).
Proof.
  intros env b st. unfold process_line.
  destruct (lex_line b (st_lexer st) (st_tk st) (st_instr st) (st_line_num st))
    as [[[[[rc lx1] tk1] i1] out1]|u|]; cbn [bind]; try apply weaker_refl.
  destruct (IS_ERROR rc); [apply weaker_refl|].
  destruct (parse_line lx1) as [[[rc2 lx2] out2]|u|]; cbn [bind]; try apply weaker_refl.
  destruct (IS_ERROR rc2); [apply weaker_refl|].
  destruct (get (lx_seq lx2) 0) as [first|u|]; cbn [bind]; try apply weaker_refl.
  assert (Rest : forall st',
    weaker
      match i_mnemonic i1 with
      | NULL_MNEMONIC =>
          line_num <- int_of (st_line_num st' + 1) ;;
          Ret (Next (mkSt (st_symtab st') (st_unresolved st') (st_pc st') line_num
                          (st_written st') (st_total st') (st_out st') (st_lexer st')
                          (st_tk st') (st_instr st') (st_stdout st')))
      | _ => process_instruction env b st'
      end
      match i_mnemonic i1 with
      | NULL_MNEMONIC =>
          line_num <- int_of (st_line_num st' + 1) ;;
          Ret (Next (mkSt (st_symtab st') (st_unresolved st') (st_pc st') line_num
                          (st_written st') (st_total st') (st_out st') (st_lexer st')
                          (st_tk st') (st_instr st') (st_stdout st')))
      | _ => process_instruction alloc_all b st'
      end).
  { intro st'. destruct (i_mnemonic i1); try apply instruction_weaker; apply weaker_refl. }
  assert (Dec : weaker
    ('(code, lexer3, symtab3, out3) <-
       parse_label_declaration (ok_resize env) (ok_symbol env) lx2 (st_symtab st) (st_pc st) ;;
     let st' := mkSt symtab3 (st_unresolved st) (st_pc st) (st_line_num st) (st_written st) (st_total st)
         (st_out st) lexer3 tk1 i1 (st_stdout st ++ out1 ++ out2 ++ out3) in
     if IS_ERROR code then Ret (Abort st') else
      match i_mnemonic i1 with
      | NULL_MNEMONIC =>
          line_num <- int_of (st_line_num st' + 1) ;;
          Ret (Next (mkSt (st_symtab st') (st_unresolved st') (st_pc st') line_num
                          (st_written st') (st_total st') (st_out st') (st_lexer st')
                          (st_tk st') (st_instr st') (st_stdout st')))
      | _ => process_instruction env b st'
      end)
    ('(code, lexer3, symtab3, out3) <-
       parse_label_declaration true true lx2 (st_symtab st) (st_pc st) ;;
     let st' := mkSt symtab3 (st_unresolved st) (st_pc st) (st_line_num st) (st_written st) (st_total st)
         (st_out st) lexer3 tk1 i1 (st_stdout st ++ out1 ++ out2 ++ out3) in
     if IS_ERROR code then Ret (Abort st') else
      match i_mnemonic i1 with
      | NULL_MNEMONIC =>
          line_num <- int_of (st_line_num st' + 1) ;;
          Ret (Next (mkSt (st_symtab st') (st_unresolved st') (st_pc st') line_num
                          (st_written st') (st_total st') (st_out st') (st_lexer st')
                          (st_tk st') (st_instr st') (st_stdout st')))
      | _ => process_instruction alloc_all b st'
      end)).
  { destruct (declaration_weaker (ok_resize env) (ok_symbol env) lx2 (st_symtab st) (st_pc st)) as [->|(l' & t' & o & ->)].
    - destruct (parse_label_declaration true true lx2 (st_symtab st) (st_pc st)) as [[[[code lx3] tab3] out3]|u|];
        cbn [bind]; try apply weaker_refl.
      cbn zeta. destruct (IS_ERROR code); [apply weaker_refl|]. apply Rest.
    - right. cbn [bind]. change (IS_ERROR ERROR_MEMORY_ALLOCATION_FAIL) with true. cbn zeta iota. eauto. }
  destruct (tk_type first); try apply Rest; try exact Dec; apply weaker_refl.
Qed.

Lemma run_weaker : forall env lines st, weaker (run_lines env lines st) (run_lines no_failure lines st).
Proof.
  intros env. induction lines as [|l lines IH]; intro st; cbn [run_lines]; [apply weaker_refl|].
  change (no_failure (st_line_num st)) with alloc_all.
  destruct (line_weaker (env (st_line_num st)) (cstring l) st) as [->|(st' & ->)].
  - destruct (process_line alloc_all (cstring l) st) as [[s|s|s]|u|]; cbn [bind]; try apply weaker_refl. apply IH.
  - right. cbn [bind]. eauto.
Qed.

Theorem assemble_weaker : forall env file src,
  assemble env file src = gaia file src \/
  exists o, assemble env file src = Ret o /\ exit_code o = EXIT_FAILURE.
Proof.
  intros env file src. unfold gaia. rewrite !assemble_after.
  destruct (run_weaker env (chunks src) (init_state file)) as [->|(st & ->)]; auto.
  right. cbn [bind after_loop]. eauto.
Qed.
