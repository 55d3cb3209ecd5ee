(** Proof_Oom.v -- one line of a run in which memory may run out. *)
From Verif Require Import Base Proof_Base Model_Opcode Model_Error Model_Lexer Model_SymbolTable Model_Parser Model_Generator Model_ForwardRef Model_Main
  Spec_Isa Spec_Text Spec_Asm Spec_Diag Spec_Grammar Spec_Report Spec_Left Spec_Total Spec_Oom
  Proof_Opcode Proof_Modes Proof_Lex1 Proof_Lex2 Proof_Core Proof_Parse Proof_Sim1 Proof_Table Prop_Table Proof_Sim2 Proof_Sim4 Proof_Run Proof_Alloc Proof_Diag Prop_Total.

Lemma land_le : forall a b, 0 <= a -> Z.land a b <= a.
Proof.
  intros a b Ha.
  assert (E : Z.ldiff (Z.land a b) a = 0).
  { apply Z.bits_inj'. intros n _. rewrite Z.ldiff_spec, Z.land_spec, Z.bits_0. destruct (Z.testbit a n), (Z.testbit b n); reflexivity. }
  pose proof (Z.sub_nocarry_ldiff a (Z.land a b) E) as S. pose proof (proj2 (Z.ldiff_nonneg a (Z.land a b)) (or_introl Ha)). lia.
Qed.

Lemma apply_masks_le : forall lexer m r, 0 <= m -> apply_masks lexer m = Ret r -> 0 <= r <= m.
Proof.
  intros lexer m r Hm H. unfold apply_masks in H. destruct (_ <? _); [discriminate|]. cbn zeta in H.
  assert (K : forall a b, 0 <= a -> 0 <= Z.land a b <= a).
  { intros a b Ha. split; [apply Z.land_nonneg; auto|apply land_le; exact Ha]. }
  injection H as <-.
  repeat match goal with |- context [if ?b then _ else _] => destruct b end;
  repeat match goal with |- context [Z.land ?a ?b] =>
    match a with context [Z.land _ _] => fail 1 | _ => idtac end;
    let x := fresh "x" in assert (0 <= Z.land a b <= a) by (apply K; lia); set (x := Z.land a b) in * end; lia.
Qed.

Lemma finish_mode_code : forall lexer ins c rc ins2 out, finish_mode lexer ins c = Ret (rc, ins2, out) ->
  rc = FORWARD_REFERENCE -> c = FORWARD_REFERENCE /\ out = [].
Proof.
  intros lexer ins c rc ins2 out H E. unfold finish_mode in H. destruct (_ =? _).
  - unfold plain_error in H. destruct (print_error _ _ _ _ _); cbn [bind] in H; try discriminate. injection H as <- _ _. discriminate.
  - injection H as <- _ <-. auto.
Qed.

Lemma land_small : forall a b, 0 <= a <= 0x1FFF -> Z.land a b <> FORWARD_REFERENCE.
Proof. intros a b H. assert (Z.land a b <= a) by (apply land_le; lia). unfold FORWARD_REFERENCE. lia. Qed.

(** only a label without a value asks for a reference to be kept *)
Lemma forward_only : forall lexer ins op tab os lx1 out1 rc ins2 out2,
  parse_operand lexer ins op tab = Ret (os, lx1, out1) -> IS_ERROR os = false ->
  parse_addr_mode lx1 ins op os = Ret (rc, ins2, out2) -> rc = FORWARD_REFERENCE ->
  out1 = [] /\ out2 = [] /\ lx1 = lexer /\
  exists i tok, op = Some i /\ get (lx_seq lexer) i = Ret tok /\ tk_type tok = TOKEN_LABEL /\ search_symbol tab (tk_str tok) = Ret ERROR_SYMBOL_NOT_FOUND.
Proof.
  intros lexer ins op tab os lx1 out1 rc ins2 out2 HO HE HM Hrc.
  assert (F : (os =? BRANCH_FORWARD_REFERENCE) || (os =? JUMP_FORWARD_REFERENCE) = true /\ out2 = []).
  { unfold parse_addr_mode in HM. destruct ((os =? BRANCH_FORWARD_REFERENCE) || (os =? JUMP_FORWARD_REFERENCE)).
    - split; [reflexivity|]. unfold parse_forward_ref_addr_mode in HM. destruct (apply_masks lx1 0x1FFF) as [a|x|]; cbn [bind] in HM; try discriminate.
      apply (finish_mode_code _ _ _ _ _ _ HM Hrc).
    - exfalso. destruct op as [i|].
      + destruct (get (lx_seq lx1) i) as [tok|x|]; cbn [bind] in HM; try discriminate. cbn zeta in HM.
        match type of HM with bind (apply_masks _ ?m) _ = _ => assert (B : 0 <= m <= 0x1FFF) end.
        { repeat match goal with |- context [if ?b then _ else _] => destruct b end; vm_compute; split; discriminate. }
        match type of HM with bind ?x _ = _ => destruct x as [m2|uu|] eqn:Em; cbn [bind] in HM; try discriminate end.
        apply apply_masks_le in Em; [|lia].
        destruct (finish_mode_code _ _ _ _ _ _ HM Hrc) as [K _]. cbn [i_bitflag set_bitflag] in K. revert K. apply land_small. lia.
      + cbn zeta in HM. destruct (finish_mode_code _ _ _ _ _ _ HM Hrc) as [K _].
        assert (Q : forall a b, 0 <= b <= 0x1FFF -> Z.land a b <> FORWARD_REFERENCE) by (intros a b Hb; rewrite Z.land_comm; apply land_small; exact Hb).
        destruct (i_mnemonic ins); cbn [i_bitflag set_bitflag] in K; revert K; apply Q; vm_compute; split; discriminate. }
  destruct F as [F ->]. destruct op as [i|]; cbn [parse_operand] in HO.
  2:{ injection HO as <- _ _. discriminate F. }
  unfold type_at in HO. destruct (get (lx_seq lexer) i) as [tok|x|] eqn:Eg; cbn [bind] in HO; try discriminate.
  destruct (ty_eqb (tk_type tok) TOKEN_LABEL) eqn:Et.
  2:{ destruct (_ || _); [injection HO as <- _ _; discriminate F|].
      unfold plain_error in HO. destruct (print_error _ _ _ _ _); cbn [bind] in HO; try discriminate. injection HO as <- _ _. discriminate F. }
  unfold parse_label_operand in HO. rewrite Eg in HO. cbn [bind] in HO.
  destruct (search_symbol tab (tk_str tok)) as [v|x|] eqn:Es; cbn [bind] in HO; try discriminate.
  destruct (v =? ERROR_SYMBOL_NOT_FOUND) eqn:Ev; cbn [negb] in HO.
  - apply Z.eqb_eq in Ev. subst v.
    assert (T0 : tk_type tok = TOKEN_LABEL) by (destruct (tk_type tok); try discriminate; reflexivity).
    destruct (is_branch _); [injection HO as <- <- <-; split; [reflexivity|]; split; [reflexivity|]; split; [reflexivity|]; exists i, tok; auto|].
    destruct (is_jump _); [injection HO as <- <- <-; split; [reflexivity|]; split; [reflexivity|]; split; [reflexivity|]; exists i, tok; auto|].
    unfold syntax_error in HO. rewrite Eg in HO. cbn [bind] in HO. destruct (print_error _ _ _ _ _); cbn [bind] in HO; try discriminate.
    injection HO as <- _ _. discriminate F.
  - destruct (set_value_at _ _ _); cbn [bind] in HO; try discriminate.
    destruct (is_branch _); [injection HO as <- _ _; discriminate F|]. destruct (is_jump _); injection HO as <- _ _; discriminate F.
Qed.

Definition given_up (st st' : St) : Prop := st_out st' = st_out st /\ st_stdout st' = st_stdout st.

Lemma instruction_lost : forall env b st, env = alloc_all \/ env <> alloc_all ->
  process_instruction env b st = process_instruction alloc_all b st \/
  (env <> alloc_all /\ exists st', process_instruction env b st = Ret (Abort st') /\ given_up st st' /\
    exists i tok, get (lx_seq (st_lexer st)) i = Ret tok /\ tk_type tok = TOKEN_LABEL /\ search_symbol (st_symtab st) (tk_str tok) = Ret ERROR_SYMBOL_NOT_FOUND).
Proof.
  intros env b st [-> |NE]; [left; reflexivity|]. unfold process_instruction.
  destruct (find_operand (st_lexer st)) as [op|u|]; cbn [bind]; auto.
  destruct (parse_operand (st_lexer st) (st_instr st) op (st_symtab st)) as [[[os lx1] out1]|u|] eqn:HO; cbn [bind]; auto.
  destruct (IS_ERROR os) eqn:HE; auto.
  destruct (parse_addr_mode lx1 (st_instr st) op os) as [[[rc ins2] out2]|u|] eqn:HM; cbn [bind]; auto.
  destruct (rc =? FORWARD_REFERENCE) eqn:Hrc; auto. apply Z.eqb_eq in Hrc.
  destruct (forward_only _ _ _ _ _ _ _ _ _ _ HO HE HM Hrc) as (-> & -> & -> & i & tok & -> & Eg & Et & Es).
  rewrite Eg. cbn [bind].
  assert (A : forall st', given_up st st' -> env <> alloc_all /\ exists st'', Ret (Abort st') = Ret (Abort st'') /\ given_up st st'' /\
    exists i tok, get (lx_seq (st_lexer st)) i = Ret tok /\ tk_type tok = TOKEN_LABEL /\ search_symbol (st_symtab st) (tk_str tok) = Ret ERROR_SYMBOL_NOT_FOUND)
    by (intros st' G; split; [exact NE|]; exists st'; split; [reflexivity|]; split; [exact G|]; exists i, tok; auto).
  destruct (ok_ref env).
  2:{ right. cbn [create_forward_ref negb bind]. apply A. split; cbn; rewrite ?app_nil_r; reflexivity. }
  cbn [alloc_all ok_ref ok_grow].
  destruct (create_forward_ref true b ins2 tok os (st_pc st) (st_line_num st)) as [[r|]|u|]; cbn [bind]; auto.
  destruct (add_ref_weaker (ok_grow env) (st_unresolved st) r) as [-> | ->]; auto.
  right. cbn [bind]. change (IS_ERROR ERROR_MEMORY_ALLOCATION_FAIL) with true. cbn [bind]. apply A. split; cbn; rewrite ?app_nil_r; reflexivity.
Qed.

(** a declaration that succeeds, or fails for want of memory, is one of a label without a value *)
Definition good_code (code : Z) : Prop := code = ERROR_MEMORY_ALLOCATION_FAIL \/ IS_ERROR code = false.

Lemma declare_fresh : forall rs ss lx tab i fd v code l' t' out, declare rs ss lx tab i fd v = Ret (code, l', t', out) -> good_code code ->
  fd = ERROR_SYMBOL_NOT_FOUND /\ out = [].
Proof.
  intros rs ss lx tab i fd v code l' t' out H G. unfold declare in H. destruct (fd =? ERROR_SYMBOL_NOT_FOUND) eqn:E; cbn [negb] in H.
  - apply Z.eqb_eq in E. split; [exact E|].
    destruct (set_value_at lx i v) as [l1|u|]; cbn [bind] in H; try discriminate.
    destruct (get (lx_seq l1) i) as [lab|u|]; cbn [bind] in H; try discriminate.
    destruct (insert_symbol _ _ _ _ _) as [[c t]|u|]; cbn [bind] in H; try discriminate. injection H as _ _ _ <-. reflexivity.
  - unfold syntax_error in H. destruct (get _ _); cbn [bind] in H; try discriminate.
    destruct (print_error _ _ _ _ _); cbn [bind] in H; try discriminate. injection H as <- _ _ _. destruct G as [G|G]; discriminate.
Qed.

Lemma declaration_fresh : forall rs ss lx tab pc code l' t' out, parse_label_declaration rs ss lx tab pc = Ret (code, l', t', out) -> good_code code ->
  out = [] /\
  exists i tok, (i = 0 /\ (tk_type tok = TOKEN_DEFINE_DIRECTIVE -> exists t1, get (lx_seq lx) 1 = Ret t1 /\ tk_type t1 <> TOKEN_LABEL) \/
                 i = 1 /\ exists t0, get (lx_seq lx) 0 = Ret t0 /\ tk_type t0 = TOKEN_DEFINE_DIRECTIVE) /\
    get (lx_seq lx) i = Ret tok /\ search_symbol tab (tk_str tok) = Ret ERROR_SYMBOL_NOT_FOUND.
Proof.
  intros rs ss lx tab pc code l' t' out H Gc. unfold parse_label_declaration in H.
  destruct (get (lx_seq lx) 0) as [t0|u|] eqn:E0; cbn [bind] in H; try discriminate.
  destruct (get (lx_seq lx) 1) as [t1|u|] eqn:E1; cbn [bind] in H; try discriminate.
  destruct (search_symbol tab (tk_str t0)) as [f0|u|] eqn:S0; cbn [bind] in H; try discriminate.
  destruct (search_symbol tab (tk_str t1)) as [f1|u|] eqn:S1; cbn [bind] in H; try discriminate. cbn zeta in H.
  destruct (ty_eqb (tk_type t1) TOKEN_NULL || ty_eqb (tk_type t1) TOKEN_INSTRUCTION) eqn:B1.
  { destruct (declare_fresh _ _ _ _ _ _ _ _ _ _ _ H Gc) as [-> ->]. split; [reflexivity|]. exists 0, t0.
    split; [left; split; [reflexivity|]; intros _; exists t1; split; [reflexivity|]; intro Q; rewrite Q in B1; discriminate|auto]. }
  destruct (ty_eqb (tk_type t1) TOKEN_EQUAL_SIGN || ty_eqb (tk_type t1) TOKEN_EQU_DIRECTIVE) eqn:B2.
  { destruct (value_at lx 2) as [v|u|]; cbn [bind] in H; try discriminate.
    destruct (declare_fresh _ _ _ _ _ _ _ _ _ _ _ H Gc) as [-> ->]. split; [reflexivity|]. exists 0, t0.
    split; [left; split; [reflexivity|]; intros _; exists t1; split; [reflexivity|]; intro Q; rewrite Q in B2; discriminate|auto]. }
  destruct (ty_eqb (tk_type t0) TOKEN_DEFINE_DIRECTIVE) eqn:B3.
  - destruct (value_at lx 2) as [v|u|]; cbn [bind] in H; try discriminate.
    destruct (declare_fresh _ _ _ _ _ _ _ _ _ _ _ H Gc) as [-> ->]. split; [reflexivity|]. exists 1, t1.
    split; [right; split; [reflexivity|]; exists t0; split; [reflexivity|]; destruct (tk_type t0); try discriminate; reflexivity|auto].
  - unfold plain_error in H. destruct (print_error _ _ _ _ _); cbn [bind] in H; try discriminate. injection H as <- _ _ _. destruct Gc as [G|G]; discriminate.
Qed.

(** the label of a token of the sequence *)
Lemma seq_label : forall lexer line file n toks i tok, LXok lexer line file n toks -> get (lx_seq lexer) i = Ret tok -> tk_type tok = TOKEN_LABEL ->
  exists pos, In (TLabel (tk_str tok), pos) toks.
Proof.
  intros lexer line file n toks i tok K G Ty. apply get_ret in G. destruct G as [H0 G].
  destruct (le_lt_dec (List.length toks) (Z.to_nat i)) as [L|L].
  - exfalso. assert (Z.to_nat i < 8)%nat by (rewrite <- (k_len _ _ _ _ _ K); apply nth_error_Some; congruence).
    destruct (k_null _ _ _ _ _ K (Z.to_nat i)) as (t & E & E2 & _); [lia|]. congruence.
  - destruct (nth_error toks (Z.to_nat i)) as [[t p]|] eqn:E; [|apply nth_error_None in E; lia].
    destruct (k_tok _ _ _ _ _ K _ _ E) as (t' & Et & Ht & _ & Hs). rewrite G in Et. injection Et as <-. cbn [fst] in *.
    exists p. apply nth_error_In in E. destruct t; try (rewrite Ty in Ht; discriminate).
    + rewrite (Hs _ eq_refl). exact E.
    + rewrite Ty in Ht. destruct d; discriminate.
Qed.

Lemma not_found : forall tab e lines c name, tab_ok tab e -> Bnd lines c -> c_env c = e ->
  search_symbol tab name = Ret ERROR_SYMBOL_NOT_FOUND -> lookup e name = None.
Proof.
  intros tab e lines c name T B <- S. rewrite (search_spec _ _ _ T) in S. destruct (lookup (c_env c) name) as [v|] eqn:E; [|reflexivity].
  injection S as ->. apply (b_vals _ _ B) in E. unfold ERROR_SYMBOL_NOT_FOUND in E. lia.
Qed.

Lemma env_dec : forall e, e = alloc_all \/ e <> alloc_all.
Proof. intros [[] [] [] []]; unfold alloc_all; auto; right; discriminate. Qed.

Lemma compile_end_dec : forall cs, cs = CEnd \/ cs <> CEnd.
Proof. intros []; auto; right; discriminate. Qed.

Lemma line_lost : forall env file lines line toks st c, Rel file st c -> Bnd lines c -> scanned line toks ->
  process_line env line st = process_line alloc_all line st \/
  (env <> alloc_all /\ new_label (c_env c) toks /\ (exists cs, compile (map fst toks) = inl cs /\ cs <> CEnd) /\
   exists st', process_line env line st = Ret (Abort st') /\ given_up st st').
Proof.
  intros env file lines line toks st c HR HB [L N]. destruct (env_dec env) as [-> |NE]; [left; reflexivity|].
  pose proof HR as [A1 A2 A3 A4 A5 A6 A7 A8 A9].
  unfold process_line. rewrite (lex_line_ok line file (st_line_num st) _ _ _ toks A7 A8 L N). cbn [bind].
  change (IS_ERROR LEXER_SUCCESS) with false. cbv iota.
  change (mkLexer (seq_of toks) (Z.of_nat (List.length toks)) None (Some line) (st_line_num st) file) with (lexed line file (st_line_num st) toks).
  rewrite parse_line_compile by exact N. destruct (compile (map fst toks)) as [cs|[base i]] eqn:C.
  2:{ left. destruct (syntax_error _ _ _) as [[[rc lx2] out2]|u|] eqn:Es; cbn [bind]; auto.
      unfold syntax_error in Es. destruct (get _ _); cbn [bind] in Es; try discriminate. destruct (print_error _ _ _ _ _); cbn [bind] in Es; try discriminate.
      injection Es as <- _ _. destruct base; reflexivity. }
  pose proof (lexed_ok line file (st_line_num st) toks N) as K0.
  assert (exists lx2, parsed (lexed line file (st_line_num st) toks) cs = Ret lx2 /\ LXok lx2 line file (st_line_num st) toks) as (lx2 & -> & K).
  { destruct cs as [|n|n i v|v| |lab m op fl]; cbn [parsed]; eauto.
    destruct (set_value_ok _ _ _ _ _ 0 v K0 ltac:(lia)) as (lx' & E & K' & _). eauto. }
  cbn [bind]. change (IS_ERROR PARSER_SUCCESS) with false. cbv iota.
  destruct (get (lx_seq lx2) 0) as [first|u|] eqn:Ef; cbn [bind]; auto.
  assert (NL : forall i tok, get (lx_seq lx2) i = Ret tok -> tk_type tok = TOKEN_LABEL ->
     search_symbol (st_symtab st) (tk_str tok) = Ret ERROR_SYMBOL_NOT_FOUND -> new_label (c_env c) toks).
  { intros i tok G Ty S. destruct (seq_label _ _ _ _ _ _ _ K G Ty) as (p & I). exists (tk_str tok), p. split; [exact I|].
    apply (not_found _ _ _ _ _ A1 HB eq_refl S). }
  set (rest := fun e st1 => match i_mnemonic (instr_of toks) with
      | NULL_MNEMONIC =>
          line_num <- int_of (st_line_num st1 + 1) ;;
          Ret (Next (mkSt (st_symtab st1) (st_unresolved st1) (st_pc st1) line_num
                          (st_written st1) (st_total st1) (st_out st1) (st_lexer st1)
                          (st_tk st1) (st_instr st1) (st_stdout st1)))
      | _ => process_instruction e line st1
      end).
  assert (Rest : forall st1, rest env st1 = rest alloc_all st1 \/
    exists st', rest env st1 = Ret (Abort st') /\ given_up st1 st' /\
    exists i tok, get (lx_seq (st_lexer st1)) i = Ret tok /\ tk_type tok = TOKEN_LABEL /\ search_symbol (st_symtab st1) (tk_str tok) = Ret ERROR_SYMBOL_NOT_FOUND).
  { intros st1. unfold rest. destruct (instruction_lost env line st1 (or_intror NE)) as [-> |(_ & st' & E & G & B)]; [left; reflexivity|].
    destruct (i_mnemonic (instr_of toks)); try (left; reflexivity); right; exists st'; auto. }
  assert (Sh : tk_type first = TOKEN_LABEL \/ tk_type first = TOKEN_DEFINE_DIRECTIVE ->
     cs <> CEnd /\ ((exists n l, map fst toks = TLabel n :: l) \/ (exists n v, map fst toks = [TDirective DDefine; TLabel n; TNumber v]))).
  { intro T0. apply get_ret in Ef. destruct Ef as [_ Ef]. change (Z.to_nat 0) with 0%nat in Ef.
    pose proof (compile_other _ _ C) as O.
    assert (F : forall t l, map fst toks = t :: l -> tk_type first = type_of t).
    { intros t l E. apply map_cons_inv in E. destruct E as ([t' p'] & xs & E1 & E2 & _). cbn in E2. subst t'.
      destruct (k_tok _ _ _ _ _ K 0%nat (t, p')) as (tk & E3 & E4 & _); [rewrite E1; reflexivity|]. rewrite Ef in E3. injection E3 as <-. exact E4. }
    destruct cs as [|n|n i v|v| |lab m op fl].
    - exfalso. assert (toks = []) as -> by (destruct toks; [reflexivity|discriminate O]).
      destruct (k_null _ _ _ _ _ K 0%nat) as (tk & E3 & E4 & _); [cbn; lia|]. rewrite Ef in E3. injection E3 as <-. rewrite E4 in T0. destruct T0; discriminate.
    - split; [discriminate|]. left. eauto.
    - split; [discriminate|]. destruct O as [[_ O]|[[_ O]|[_ O]]]; eauto.
    - exfalso. destruct O as [O|O]; rewrite (F _ _ O) in T0; destruct T0; discriminate.
    - exfalso. rewrite (F _ _ O) in T0. destruct T0; discriminate.
    - split; [discriminate|]. destruct (compile_instr _ _ _ _ _ C) as (_ & _ & _ & _ & [(_ & nm & r & O1)|(n & nm & r & _ & O1)]); [exfalso|eauto].
      rewrite (F _ _ O1) in T0. destruct T0; discriminate. }
  assert (Fresh : tk_type first = TOKEN_LABEL \/ tk_type first = TOKEN_DEFINE_DIRECTIVE ->
    forall rs ss code l' t' out, parse_label_declaration rs ss lx2 (st_symtab st) (st_pc st) = Ret (code, l', t', out) -> good_code code ->
    out = [] /\ new_label (c_env c) toks).
  { intros T0 rs ss code l' t' out H Gc. destruct (declaration_fresh _ _ _ _ _ _ _ _ _ H Gc) as [-> (i & tok & W & G & S)].
    split; [reflexivity|]. apply (NL i tok G); [|exact S].
    destruct (Sh T0) as [_ [(n & l & E)|(n & v & E)]].
    - apply map_cons_inv in E. destruct E as ([t0' p'] & xs & E1 & E2 & _). cbn in E2. subst t0'.
      destruct (k_tok _ _ _ _ _ K 0%nat (TLabel n, p')) as (tk & E3 & E4 & _); [rewrite E1; reflexivity|].
      assert (E0 : get (lx_seq lx2) 0 = Ret tk) by (apply get_ret; split; [lia|exact E3]).
      destruct W as [[-> _]|[-> (t0 & W & W2)]]; [rewrite E0 in G; injection G as <-; exact E4|]. rewrite E0 in W. injection W as <-. rewrite E4 in W2. discriminate.
    - apply map_cons_inv in E. destruct E as ([t0' p0'] & xs & E1 & E2 & E). cbn in E2. subst t0'.
      apply map_cons_inv in E. destruct E as ([t1' p'] & ys & E1' & E2 & _). cbn in E2. subst t1'. subst xs.
      destruct (k_tok _ _ _ _ _ K 0%nat (TDirective DDefine, p0')) as (tk & E3 & E4 & _); [rewrite E1; reflexivity|].
      destruct (k_tok _ _ _ _ _ K 1%nat (TLabel n, p')) as (tk1 & F3 & F4 & _); [rewrite E1; reflexivity|].
      assert (E0 : get (lx_seq lx2) 0 = Ret tk) by (apply get_ret; split; [lia|exact E3]).
      assert (F0 : get (lx_seq lx2) 1 = Ret tk1) by (apply get_ret; split; [lia|exact F3]).
      destruct W as [[-> W]|[-> _]]; [|rewrite F0 in G; injection G as <-; exact F4].
      rewrite E0 in G. injection G as <-. destruct (W E4) as (t1 & Q1 & Q2). rewrite F0 in Q1. injection Q1 as <-. contradiction. }
  assert (Dec : tk_type first = TOKEN_LABEL \/ tk_type first = TOKEN_DEFINE_DIRECTIVE -> forall dec,
    dec = (fun e => '(code, lexer3, symtab3, out3) <-
       parse_label_declaration (ok_resize e) (ok_symbol e) lx2 (st_symtab st) (st_pc st) ;;
     let st' := mkSt symtab3 (st_unresolved st) (st_pc st) (st_line_num st) (st_written st) (st_total st)
         (st_out st) lexer3 (last_tk init_token toks) (instr_of toks) (st_stdout st ++ out3) in
     if IS_ERROR code then Ret (Abort st') else rest e st') ->
    dec env = dec alloc_all \/ (new_label (c_env c) toks /\ exists st', dec env = Ret (Abort st') /\ given_up st st')).
  { intros T0 dec ->. specialize (Fresh T0).
    destruct (declaration_weaker (ok_resize env) (ok_symbol env) lx2 (st_symtab st) (st_pc st)) as [E|(l' & t' & o & E)].
    - rewrite E. change (ok_resize alloc_all) with true. change (ok_symbol alloc_all) with true.
      destruct (parse_label_declaration true true lx2 (st_symtab st) (st_pc st)) as [[[[code lx3] tab3] out3]|u|] eqn:D; cbn [bind]; auto. cbn zeta.
      destruct (IS_ERROR code) eqn:Ec; auto.
      match goal with |- rest env ?s = _ \/ _ => destruct (Rest s) as [-> |(st' & R1 & [G1 G2] & _)] end; auto.
      right. destruct (Fresh _ _ _ _ _ _ D (or_intror Ec)) as [-> F]. split; [exact F|]. exists st'. split; [exact R1|].
      cbn in G1, G2. rewrite app_nil_r in G2. split; assumption.
    - right. destruct (Fresh _ _ _ _ _ _ E (or_introl eq_refl)) as [-> F]. split; [exact F|]. rewrite E. cbn [bind].
      change (IS_ERROR ERROR_MEMORY_ALLOCATION_FAIL) with true. cbv iota zeta. eexists. split; [reflexivity|]. split; cbn; rewrite ?app_nil_r; reflexivity. }
  assert (Plain : forall pc, cs <> CEnd -> let st1 := mkSt (st_symtab st) (st_unresolved st) pc (st_line_num st) (st_written st) (st_total st)
         (st_out st) lx2 (last_tk init_token toks) (instr_of toks) (st_stdout st ++ []) in
    rest env st1 = rest alloc_all st1 \/ (env <> alloc_all /\ new_label (c_env c) toks /\ (exists cs0, inl (B := bool * nat) cs = inl cs0 /\ cs0 <> CEnd) /\
      exists st', rest env st1 = Ret (Abort st') /\ given_up st st')).
  { intros pc NC st1. destruct (Rest st1) as [-> |(st' & R1 & [G1 G2] & i & tok & B1 & B2 & B3)]; auto.
    right. split; [exact NE|]. split; [exact (NL i tok B1 B2 B3)|]. split; [eauto|]. exists st'. split; [exact R1|].
    cbn in G1, G2. rewrite app_nil_r in G2. split; assumption. }
  assert (DecX : tk_type first = TOKEN_LABEL \/ tk_type first = TOKEN_DEFINE_DIRECTIVE ->
     let dec := fun e => '(code, lexer3, symtab3, out3) <-
       parse_label_declaration (ok_resize e) (ok_symbol e) lx2 (st_symtab st) (st_pc st) ;;
     let st' := mkSt symtab3 (st_unresolved st) (st_pc st) (st_line_num st) (st_written st) (st_total st)
         (st_out st) lexer3 (last_tk init_token toks) (instr_of toks) (st_stdout st ++ out3) in
     if IS_ERROR code then Ret (Abort st') else rest e st' in
     dec env = dec alloc_all \/ (env <> alloc_all /\ new_label (c_env c) toks /\ (exists cs0, inl (B := bool * nat) cs = inl cs0 /\ cs0 <> CEnd) /\
      exists st', dec env = Ret (Abort st') /\ given_up st st')).
  { intros T0 dec. destruct (Dec T0 dec eq_refl) as [E|[F G]]; auto. right. split; [exact NE|]. split; [exact F|]. split; [|exact G].
    exists cs. split; [reflexivity|]. apply Sh, T0. }
  destruct (compile_end_dec cs) as [-> |NC].
  - left. pose proof (compile_other _ _ C) as O. cbn in O.
    apply map_cons_inv in O. destruct O as ([t0' p0'] & xs & E1 & E2 & E). cbn in E2. subst t0'.
    destruct (k_tok _ _ _ _ _ K 0%nat (TDirective DEnd, p0')) as (tk & E3 & E4 & _); [rewrite E1; reflexivity|].
    apply get_ret in Ef. destruct Ef as [_ Ef]. change (Z.to_nat 0) with 0%nat in Ef. rewrite E3 in Ef. injection Ef as <-. rewrite E4. reflexivity.
  - destruct (tk_type first) eqn:Tf; try (exact (Plain _ NC)); try (left; reflexivity); apply DecX; auto.
Qed.
