(** Proof_Sim4.v -- one turn of the loop: process_line simulates [line_step]. *)
From Verif Require Import Base Proof_Base Model_Opcode Model_Error Model_Lexer Model_SymbolTable
  Model_Parser Model_ForwardRef Model_Generator Model_Main Spec_Isa Spec_Text Spec_Asm Spec_Link
  Spec_Report Proof_Opcode Proof_Chars Proof_Error Proof_Lex1 Proof_Lex2 Proof_Prime Proof_Table
  Proof_Refs Proof_Core Proof_Parse Proof_Sim1 Proof_Sim2 Proof_Sim3 Prop_Table.

Lemma Step_change : forall file lines line c c' r e, Step file lines line c r e ->
  c_line c = c_line c' -> c_file c = c_file c' -> Step file lines line c' r e.
Proof.
  intros file lines line c c' r e H E1 E2. destruct H.
  - eapply Step_next; eauto.
  - eapply Step_finish; eauto.
  - eapply Step_err; eauto; congruence.
  - apply Step_huge; auto.
Qed.

Lemma declare_ok : forall lexer line file lines toks tab c i l p v,
  LXok lexer line file (c_line c) toks -> placed line toks -> (i < 8)%nat ->
  nth_error toks i = Some (TLabel l, p) -> tab_ok tab (c_env c) -> Bnd lines c ->
  let found := match lookup (c_env c) l with Some w => w | None => ERROR_SYMBOL_NOT_FOUND end in
  match lookup (c_env c) l with
  | Some _ => exists lexer1 out, declare true true lexer tab (Z.of_nat i) found v =
                Ret (ERROR_LABEL_REDEFINITION, lexer1, tab, out) /\
                Report file (c_line c) "no redefinition of labels" line (tok_pos toks i) out
  | None =>
      (exists lexer1 tab1, declare true true lexer tab (Z.of_nat i) found v =
                Ret (SYMBOL_INSERTION_SUCCESS, lexer1, tab1, []) /\
                tab_ok tab1 ((l, v) :: c_env c) /\ LXok lexer1 line file (c_line c) toks /\
                (forall j w, j <> i -> val lexer j w -> val lexer1 j w)) \/
      huge lines (declare true true lexer tab (Z.of_nat i) found v)
  end.
Proof.
  intros lexer line file lines toks tab c i l p v K P Li Ei HT B found. unfold declare.
  assert (N : toks <> []) by (intros ->; destruct i; discriminate).
  destruct (lookup (c_env c) l) as [w|] eqn:Lk.
  - pose proof (b_vals _ _ B l w Lk) as V. unfold found.
    destruct (Z.eqb_spec w ERROR_SYMBOL_NOT_FOUND) as [Q|_]; [unfold ERROR_SYMBOL_NOT_FOUND in Q; lia|].
    cbn [negb].
    destruct (syntax_error_ok _ _ _ _ _ ERROR_LABEL_REDEFINITION "no redefinition of labels" i K P N Li eq_refl)
      as (out & Eo & Ro).
    rewrite Eo. cbn [bind]. eauto.
  - unfold found. change (negb (ERROR_SYMBOL_NOT_FOUND =? ERROR_SYMBOL_NOT_FOUND)) with false. cbv iota.
    destruct (set_value_ok _ _ _ _ _ i v K Li) as (lexer1 & Es & K1 & V1 & VO).
    destruct (get_tok _ _ _ _ _ _ _ K1 Ei) as (tk & Eg & Ty & Lo & Sr & Va).
    rewrite Es. cbn [bind]. rewrite Eg. cbn [bind]. rewrite (Sr l eq_refl), (Va v V1).
    pose proof (t_count _ _ HT) as TC.
    destruct (Z_lt_le_dec (tab_count tab) MAX_SYMBOLS) as [L|L].
    + destruct (insert_spec true true tab (c_env c) l v HT) as (tab' & Ei' & Ok & _); auto.
      { apply lookup_none. exact Lk. }
      cbn [insert_memory andb orb] in *. rewrite Ei'. cbn [bind]. left. eauto 6.
    + rewrite (insert_overflow tab (c_env c) l v true true HT L). cbn [bind]. right. split; [eauto|].
      destruct B as [_ _ _ B4 _ _ _]. unfold zlen in *. unfold MAX_SYMBOLS, FEW in *. lia.
Qed.

Lemma lookup_cons : forall l v e n, lookup ((l, v) :: e) n = if text_eqb l n then Some v else lookup e n.
Proof. reflexivity. Qed.

(** bounds after a definition *)
Lemma BndI_define : forall lines c l v, Bnd lines c -> 0 <= v <= 65535 + 3 * zlen lines ->
  BndI lines (c_define c l v).
Proof.
  intros lines c l v [B1 B2 B3 B4 B5 B6 B7] V.
  constructor; cbn [c_define c_line c_pc c_total c_env c_refs]; auto; try lia.
  - unfold zlen in *. cbn [List.length]. lia.
  - intros n w. rewrite lookup_cons. destruct (text_eqb l n); [intro Q; injection Q as <-; exact V|apply B6].
Qed.

Lemma Bnd_BndI : forall lines c, Bnd lines c -> BndI lines c.
Proof. intros lines c [B1 B2 B3 B4 B5 B6 B7]. constructor; auto; lia. Qed.

Lemma Bnd_plain : forall lines line c pc, BndI lines c -> Forall (ref_good lines) (c_refs c) ->
  0 <= pc <= 65535 + 3 * zlen lines ->
  Bnd (lines ++ [line]) (c_next_line (mkCore (c_env c) (c_refs c) pc (c_line c) (c_total c) (c_file c))).
Proof.
  intros lines line c pc [B1 B2 B3 B4 B5 B6] G Hp.
  assert (zlen (lines ++ [line]) = zlen lines + 1) as Z1 by apply zlen_app.
  constructor; cbn [c_next_line c_line c_pc c_total c_env c_refs]; rewrite ?Z1; auto; try lia.
  - intros n v H. apply B6 in H. lia.
  - eapply Forall_impl; [|exact G]. intros. apply ref_good_more. assumption.
Qed.

Lemma get_tok_any : forall lexer line file n toks i, LXok lexer line file n toks -> (i < 8)%nat ->
  exists t, get (lx_seq lexer) (Z.of_nat i) = Ret t.
Proof. intros. destruct (get_type _ _ _ _ _ i H H0) as (t & E & _). eauto. Qed.

Section ProcessLine.
Variables (file : text) (lines : list text) (line : text) (toks : list (tok * nat)).
Variables (st : St) (c : core).
Hypothesis HREL : Rel file st c.
Hypothesis HB : Bnd lines c.
Hypothesis HLEX : Lexes wr true 0 line toks.
Hypothesis HLEN : (List.length toks <= 8)%nat.

Let ts := map fst toks.

Lemma HPL : placed line toks.
Proof. intros t p Hin. eapply Lexes_solid; eauto. Qed.

Lemma HNM : named ts.
Proof. eapply Lexes_named; eauto. Qed.

Lemma HNUM : forall v, In (TNumber v) ts -> 0 <= v <= 65535.
Proof. intros v H. eapply Lexes_numbers; eauto. apply wr_numbers. Qed.

Lemma toks_nth : forall i t, nth_error ts i = Some t -> exists p, nth_error toks i = Some (t, p).
Proof.
  intros i t H. unfold ts in H. rewrite nth_error_map in H. destruct (nth_error toks i) as [[t' p]|]; [|discriminate].
  injection H as ->. eauto.
Qed.

Let LXR := lexed line file (c_line c) toks.

Lemma KLX : LXok LXR line file (c_line c) toks.
Proof. apply lexed_ok, HLEN. Qed.

(** process_line when the line is lexed and parsed *)
Definition upd0 (lexer : Lexer) (symtab : SymbolTable) (pc : Z) (out : text) : St :=
  mkSt symtab (st_unresolved st) pc (st_line_num st) (st_written st) (st_total st)
       (st_out st) lexer (last_tk init_token toks) (instr_of toks) (st_stdout st ++ out).

Definition rest0 (st' : St) : M LineRes :=
  match i_mnemonic (instr_of toks) with
  | NULL_MNEMONIC =>
    line_num <- int_of (st_line_num st' + 1) ;;
    Ret (Next (mkSt (st_symtab st') (st_unresolved st') (st_pc st') line_num
                    (st_written st') (st_total st') (st_out st') (st_lexer st')
                    (st_tk st') (st_instr st') (st_stdout st')))
  | _ => process_instruction alloc_all line st'
  end.

Lemma process_line_lexed :
  process_line alloc_all line st =
  ('(return_code, lexer2, out2) <- parse_line LXR ;;
   if IS_ERROR return_code then Ret (Abort (upd0 lexer2 (st_symtab st) (st_pc st) out2))
   else
      first <- get (lx_seq lexer2) 0 ;;
      match tk_type first with
      | TOKEN_LABEL | TOKEN_DEFINE_DIRECTIVE =>
        '(code, lexer3, symtab3, out3) <-
           parse_label_declaration true true lexer2 (st_symtab st) (st_pc st) ;;
        let st' := upd0 lexer3 symtab3 (st_pc st) (out2 ++ out3) in
        if IS_ERROR code then Ret (Abort st') else rest0 st'
      | TOKEN_BASE | TOKEN_ORG_DIRECTIVE => rest0 (upd0 lexer2 (st_symtab st) (tk_value first) out2)
      | TOKEN_END_DIRECTIVE => Ret (Finish (upd0 lexer2 (st_symtab st) (st_pc st) out2))
      | _ => rest0 (upd0 lexer2 (st_symtab st) (st_pc st) out2)
      end).
Proof.
  destruct HREL as [A1 A2 A3 A4 A5 A6 A7 A8 A9].
  unfold process_line. rewrite A4. rewrite (lex_line_ok line file (c_line c) _ _ _ toks A7 A8 HLEX HLEN).
  cbn [bind]. change (IS_ERROR LEXER_SUCCESS) with false. cbv iota. unfold LXR, lexed, upd0. rewrite A4. cbn [app].
  reflexivity.
Qed.

Lemma Rel_upd0 : forall lexer symtab pc c', LXok lexer line file (c_line c) toks ->
  tab_ok symtab (c_env c') -> c_refs c' = c_refs c -> c_pc c' = pc -> c_line c' = c_line c ->
  c_total c' = c_total c -> c_file c' = c_file c ->
  Rel file (upd0 lexer symtab pc []) c'.
Proof.
  intros lexer symtab pc c' K T E1 E2 E3 E4 E5. destruct HREL as [A1 A2 A3 A4 A5 A6 A7 A8 A9].
  constructor; cbn [upd0 st_symtab st_unresolved st_pc st_line_num st_total st_out st_lexer st_stdout]; auto; try congruence.
  - apply (k_len _ _ _ _ _ K).
  - apply (k_file _ _ _ _ _ K).
  - rewrite A9. reflexivity.
Qed.

Lemma rest0_plain : forall st', no_mnemonic ts -> rest0 st' =
  (line_num <- int_of (st_line_num st' + 1) ;;
   Ret (Next (mkSt (st_symtab st') (st_unresolved st') (st_pc st') line_num
                   (st_written st') (st_total st') (st_out st') (st_lexer st')
                   (st_tk st') (st_instr st') (st_stdout st')))).
Proof.
  intros st' N. unfold rest0, instr_of. destruct (instr_of_mnemonic toks init_instruction) as (A & _).
  rewrite A. fold ts. rewrite last_mnemonic_none by exact N. reflexivity.
Qed.

Lemma rest0_instr : forall st', (exists n, In (TMnemonic n) ts) -> rest0 st' = process_instruction alloc_all line st'.
Proof.
  intros st' H. unfold rest0, instr_of. destruct (instr_of_mnemonic toks init_instruction) as (A & _).
  rewrite A. fold ts. destruct (last_mnemonic_real ts NULL_MNEMONIC HNM (or_intror H)) as (n & E).
  cbn [i_mnemonic init_instruction]. destruct (last_mnemonic NULL_MNEMONIC ts); try reflexivity; discriminate.
Qed.

Lemma first_type : forall lexer t r, LXok lexer line file (c_line c) toks -> ts = t :: r ->
  exists tk, get (lx_seq lexer) 0 = Ret tk /\ tk_type tk = type_of t /\
             (forall l, t = TLabel l -> tk_str tk = l) /\ (forall v, val lexer 0 v -> tk_value tk = v).
Proof.
  intros lexer t r K E. destruct (toks_nth 0 t) as (p & Ep); [rewrite E; reflexivity|].
  destruct (get_tok _ _ _ _ _ _ _ K Ep) as (tk & A & B & C & D & F). exists tk. auto.
Qed.

Lemma ts_toks : forall t r, ts = t :: r -> toks <> [].
Proof. intros t r E ->. discriminate. Qed.

(** the operand of an accepted instruction line has the value the machine uses *)
Lemma operand_values : forall lab m op fl, compile ts = inl (CInstr lab m op fl) ->
  (forall i v, op = Some (i, TNumber v) -> val LXR i v) /\
  (forall i l, op = Some (i, TLabel l) -> val LXR i 0) /\
  (op = None -> (List.length toks < 8)%nat) /\
  (forall i t, op = Some (i, t) -> (0 < i)%nat).
Proof.
  intros lab m op fl H. destruct (compile_instr _ _ _ _ _ H) as (Em & Eo & Ef & Es & Sh).
  assert (NTH : forall i t, op = Some (i, t) -> (0 < i)%nat /\ exists p, nth_error toks i = Some (t, p)).
  { intros i t E. rewrite Eo in E. destruct (find_op_nth _ _ _ _ E) as (A & B & C & D).
    split; [lia|]. apply toks_nth.
    destruct ts as [|x l]; cbn [tl] in B; [destruct (i - 1)%nat; discriminate|].
    destruct i as [|i]; [lia|]. cbn [nth_error]. replace (S i - 1)%nat with i in B by lia. exact B. }
  split; [|split; [|split]].
  - intros i v E. destruct (NTH _ _ E) as (_ & p & Ep). eapply (val_lexed line file (c_line c) toks i); eauto.
  - intros i l E. destruct (NTH _ _ E) as (Lt & p & Ep).
    eapply (val_lexed line file (c_line c) toks i); eauto. fold ts.
    rewrite Eo in E. destruct (find_op_nth _ _ _ _ E) as (A & B & C & D).
    intros k u Hk Hu v ->.
    destruct k as [|k].
    + destruct Sh as [(_ & nm & r & Et)|(n & nm & r & _ & Et)]; rewrite Et in Hu; discriminate.
    + assert (nth_error (tl ts) k = Some (TNumber v)) as Hu' by (destruct ts; [discriminate|exact Hu]).
      destruct (Nat.eq_dec k (i - 1)) as [->|Nk]; [congruence|].
      specialize (D k (TNumber v) ltac:(lia) Hu'). discriminate.
  - intro E. apply Es in E. unfold ts in E. rewrite map_length in E. lia.
  - intros i t E. apply NTH in E. apply E.
Qed.

Theorem process_line_sim :
  Step file lines line c (process_line alloc_all line st) (line_step line toks c).
Proof.
  rewrite process_line_lexed. unfold LXR. rewrite parse_line_compile by exact HLEN. fold LXR. unfold line_step.
  fold ts. pose proof HREL as [A1 A2 A3 A4 A5 A6 A7 A8 A9].
  destruct (compile ts) as [s|[base i]] eqn:C.
  2:{ destruct (compile_inr _ _ _ C) as [Hi Hts].
      assert (N : toks <> []) by (intros ->; apply Hts; reflexivity).
      destruct (syntax_error_ok _ _ _ _ _ (if base then ERROR_ILLEGAL_BASE else ERROR_ILLEGAL_SEQUENCE)
                 (if base then "illegal base" else "illegal syntax") i KLX HPL N Hi)
        as (out & Eo & Ro); [destruct base; reflexivity|].
      rewrite Eo. cbn [bind].
      assert (IS_ERROR (if base then ERROR_ILLEGAL_BASE else ERROR_ILLEGAL_SEQUENCE) = true) as -> by (destruct base; reflexivity).
      eapply Step_err; [reflexivity|reflexivity|reflexivity| |]; cbn.
      - rewrite A9. exact Ro.
      - exact A6. }
  pose proof (compile_other _ _ C) as Sh.
  destruct s as [|n|n i v|v| |lab m op fl].
  - (* empty *)
    cbn [parsed bind]. change (IS_ERROR PARSER_SUCCESS) with false. cbv iota.
    assert (toks = []) as Et by (unfold ts in Sh; destruct toks; [reflexivity|discriminate]).
    destruct (k_null _ _ _ _ _ KLX 0%nat) as (tk & Etk & Ty & _); [rewrite Et; cbn; lia|].
    assert (get (lx_seq LXR) 0 = Ret tk) as -> by (apply get_ret; split; [lia|exact Etk]).
    cbn [bind]. rewrite Ty. rewrite rest0_plain by (rewrite Sh; intros n []).
    eapply finish_plain.
    + eapply Rel_upd0 with (c' := c); auto using KLX.
    + exact HB.
    + reflexivity.
    + replace c with (mkCore (c_env c) (c_refs c) (c_pc c) (c_line c) (c_total c) (c_file c)) by (destruct c; reflexivity).
      apply Bnd_plain; [apply Bnd_BndI, HB|apply HB|apply HB].
  - (* label alone *)
    cbn [parsed bind]. change (IS_ERROR PARSER_SUCCESS) with false. cbv iota.
    destruct (first_type _ _ _ KLX Sh) as (tk & Eg & Ty & Sr & Va). rewrite Eg. cbn [bind]. rewrite Ty. cbn [type_of].
    unfold parse_label_declaration. rewrite Eg. cbn [bind].
    assert (LT : List.length toks = 1%nat) by (rewrite <- (map_length fst); fold ts; rewrite Sh; reflexivity).
    destruct (k_null _ _ _ _ _ KLX 1%nat) as (tk1 & Etk1 & Ty1 & _); [lia|].
    assert (get (lx_seq LXR) 1 = Ret tk1) as -> by (apply get_ret; split; [lia|exact Etk1]).
    cbn [bind]. rewrite (Sr n eq_refl). rewrite !(search_spec _ _ _ A1). cbn [bind]. rewrite Ty1.
    change (ty_eqb TOKEN_NULL TOKEN_NULL || ty_eqb TOKEN_NULL TOKEN_INSTRUCTION) with true. cbv iota.
    destruct (toks_nth 0 (TLabel n)) as (p & Ep); [rewrite Sh; reflexivity|].
    pose proof (declare_ok LXR line file lines toks (st_symtab st) c 0 n p (st_pc st) KLX HPL ltac:(lia) Ep A1 HB) as D.
    cbv zeta in D. change (Z.of_nat 0) with 0 in D.
    destruct (lookup (c_env c) n) as [w|] eqn:Lk.
    + destruct D as (lexer1 & out & Ed & Rd). rewrite Ed. cbn [bind].
      change (IS_ERROR ERROR_LABEL_REDEFINITION) with true. cbv iota zeta.
      eapply Step_err; [reflexivity|reflexivity|reflexivity| |]; cbn.
      * rewrite A9. exact Rd.
      * exact A6.
    + destruct D as [(lexer1 & tab1 & Ed & T1 & K1 & _)|[(u & Hu) Hs]].
      2:{ rewrite Hu. cbn [bind]. apply Step_huge. split; eauto. }
      rewrite Ed. cbn [bind]. change (IS_ERROR SYMBOL_INSERTION_SUCCESS) with false. cbv iota zeta.
      rewrite rest0_plain by (rewrite Sh; intros k [Q|[]]; discriminate).
      rewrite A3 in T1. change (@nil ascii ++ []) with (@nil ascii).
      eapply finish_plain.
      * eapply Rel_upd0 with (c' := c_define c n (c_pc c)); auto.
      * exact HB.
      * reflexivity.
      * change (c_define c n (c_pc c)) with (mkCore (c_env (c_define c n (c_pc c))) (c_refs (c_define c n (c_pc c)))
           (c_pc c) (c_line (c_define c n (c_pc c))) (c_total (c_define c n (c_pc c))) (c_file (c_define c n (c_pc c)))).
        apply Bnd_plain; [apply BndI_define; [exact HB|apply HB]|apply HB|apply HB].
  - (* constants *)
    cbn [parsed bind]. change (IS_ERROR PARSER_SUCCESS) with false. cbv iota.
    assert (exists tk0, get (lx_seq LXR) 0 = Ret tk0 /\
       (tk_type tk0 = TOKEN_LABEL /\ i = 0%nat /\ tk_str tk0 = n \/ tk_type tk0 = TOKEN_DEFINE_DIRECTIVE /\ i = 1%nat)) as (tk0 & Eg0 & Cs).
    { destruct Sh as [(Hi & E)|[(Hi & E)|(Hi & E)]]; destruct (first_type _ _ _ KLX E) as (tk & Eg & Ty & Sr & Va);
        exists tk; (split; [exact Eg|]); cbn in Ty; auto. }
    assert (exists tk1, get (lx_seq LXR) 1 = Ret tk1 /\
       ((tk_type tk1 = TOKEN_EQUAL_SIGN \/ tk_type tk1 = TOKEN_EQU_DIRECTIVE) /\ i = 0%nat \/
        tk_type tk1 = TOKEN_LABEL /\ tk_str tk1 = n /\ i = 1%nat)) as (tk1 & Eg1 & Cs1).
    { assert (exists t, nth_error ts 1 = Some t /\
        ((type_of t = TOKEN_EQUAL_SIGN \/ type_of t = TOKEN_EQU_DIRECTIVE) /\ i = 0%nat \/ t = TLabel n /\ i = 1%nat)) as (t & Et & Ct).
      { destruct Sh as [(Hi & E)|[(Hi & E)|(Hi & E)]]; rewrite E; eexists; (split; [reflexivity|]); cbn; auto. }
      destruct (toks_nth 1 t Et) as (p & Ep).
      destruct (get_tok _ _ _ _ _ _ _ KLX Ep) as (tk & A & B & _ & D & _). exists tk. split; [exact A|]. cbn [fst] in *.
      destruct Ct as [Ct|[-> Hi]]; [left; rewrite B; exact Ct|right]. split; [exact B|]. auto. }
    assert (value_at LXR 2 = Ret v) as EV.
    { apply (value_at_number line file (c_line c) toks 2 v HLEN ltac:(lia)). fold ts.
      destruct Sh as [(Hi & E)|[(Hi & E)|(Hi & E)]]; rewrite E; reflexivity. }
    destruct (toks_nth i (TLabel n)) as (p & Ep).
    { destruct Sh as [(-> & E)|[(-> & E)|(-> & E)]]; rewrite E; reflexivity. }
    assert (i < 8)%nat as Li by (destruct Sh as [(-> & E)|[(-> & E)|(-> & E)]]; lia).
    assert (0 <= v <= 65535) as Hv.
    { apply HNUM. destruct Sh as [(Hi & E)|[(Hi & E)|(Hi & E)]]; rewrite E; cbn; tauto. }
    assert (NM0 : no_mnemonic ts).
    { intros k. destruct Sh as [(Hi & E)|[(Hi & E)|(Hi & E)]]; rewrite E; intros [Q|[Q|[Q|[]]]]; discriminate. }
    pose proof (declare_ok LXR line file lines toks (st_symtab st) c i n p v KLX HPL Li Ep A1 HB) as D.
    cbv zeta in D.
    rewrite Eg0. cbn [bind].
    match goal with |- context [match tk_type tk0 with TOKEN_LABEL => ?a | _ => _ end] =>
      assert (DEC : parse_label_declaration true true LXR (st_symtab st) (st_pc st) =
        declare true true LXR (st_symtab st) (Z.of_nat i)
          (match lookup (c_env c) n with Some w => w | None => ERROR_SYMBOL_NOT_FOUND end) v) end.
    { unfold parse_label_declaration. rewrite Eg0, Eg1. cbn [bind]. rewrite !(search_spec _ _ _ A1). cbn [bind].
      destruct Cs as [(C1 & C2 & C3)|(C1 & C2)]; destruct Cs1 as [(D1 & D2)|(D1 & D2 & D3)]; try congruence; try lia.
      - subst i. rewrite C3. destruct D1 as [D1|D1]; rewrite D1; cbn; rewrite EV; reflexivity.
      - subst i. rewrite D2, D1, C1. cbn. rewrite EV. reflexivity. }
    rewrite DEC.
    match goal with |- Step _ _ _ _ ?x _ =>
      assert (SEL : x = ('(code, lexer3, symtab3, out3) <- declare true true LXR (st_symtab st) (Z.of_nat i)
          (match lookup (c_env c) n with Some w => w | None => ERROR_SYMBOL_NOT_FOUND end) v ;;
        let st' := upd0 lexer3 symtab3 (st_pc st) ([] ++ out3) in
        if IS_ERROR code then Ret (Abort st') else rest0 st'))
    end.
    { destruct Cs as [(C1 & _)|(C1 & _)]; rewrite C1; reflexivity. }
    rewrite SEL. clear SEL DEC.
    destruct (lookup (c_env c) n) as [w|] eqn:Lk.
    + destruct D as (lexer1 & out & Ed & Rd). rewrite Ed. cbn [bind].
      change (IS_ERROR ERROR_LABEL_REDEFINITION) with true. cbv iota zeta.
      eapply Step_err; [reflexivity|reflexivity|reflexivity| |]; cbn.
      * rewrite A9. exact Rd.
      * exact A6.
    + destruct D as [(lexer1 & tab1 & Ed & T1 & K1 & _)|[(u & Hu) Hs]].
      2:{ rewrite Hu. cbn [bind]. apply Step_huge. split; eauto. }
      rewrite Ed. cbn [bind]. change (IS_ERROR SYMBOL_INSERTION_SUCCESS) with false. cbv iota zeta.
      rewrite rest0_plain by exact NM0.
      change (@nil ascii ++ []) with (@nil ascii).
      eapply finish_plain.
      * eapply Rel_upd0 with (c' := c_define c n v); auto.
      * exact HB.
      * reflexivity.
      * change (c_define c n v) with (mkCore (c_env (c_define c n v)) (c_refs (c_define c n v))
           (c_pc c) (c_line (c_define c n v)) (c_total (c_define c n v)) (c_file (c_define c n v))).
        pose proof (zlen_pos _ lines).
        apply Bnd_plain; [apply BndI_define; [exact HB|lia]|apply HB|apply HB].
  - (* origins *)
    cbn [parsed]. destruct (set_value_ok _ _ _ _ _ 0 v KLX ltac:(lia)) as (lexer1 & Es & K1 & V1 & _).
    change (Z.of_nat 0) with 0 in Es. rewrite Es. cbn [bind]. change (IS_ERROR PARSER_SUCCESS) with false. cbv iota.
    assert (0 <= v <= 65535) as Hv.
    { apply HNUM. destruct Sh as [E|E]; rewrite E; cbn; tauto. }
    assert (NM0 : no_mnemonic ts).
    { intros k. destruct Sh as [E|E]; rewrite E; cbn; intuition discriminate. }
    assert (exists tk0, get (lx_seq lexer1) 0 = Ret tk0 /\ tk_value tk0 = v /\
       (tk_type tk0 = TOKEN_BASE \/ tk_type tk0 = TOKEN_ORG_DIRECTIVE)) as (tk0 & Eg0 & Hval & Cs).
    { destruct Sh as [E|E]; destruct (first_type _ _ _ K1 E) as (tk & Eg & Ty & Sr & Va);
        exists tk; (split; [exact Eg|]); cbn in Ty; auto. }
    rewrite Eg0. cbn [bind]. rewrite Hval.
    match goal with |- Step _ _ _ _ ?x _ => assert (x = rest0 (upd0 lexer1 (st_symtab st) v [])) as -> end.
    { destruct Cs as [-> | ->]; reflexivity. }
    rewrite rest0_plain by exact NM0.
    eapply finish_plain.
    + eapply Rel_upd0 with (c' := mkCore (c_env c) (c_refs c) v (c_line c) (c_total c) (c_file c)); auto.
    + exact HB.
    + reflexivity.
    + pose proof (zlen_pos _ lines). apply Bnd_plain; [apply Bnd_BndI, HB|apply HB|lia].
  - (* .END *)
    cbn [parsed bind]. change (IS_ERROR PARSER_SUCCESS) with false. cbv iota.
    destruct (first_type _ _ _ KLX Sh) as (tk & Eg & Ty & Sr & Va). rewrite Eg. cbn [bind]. rewrite Ty. cbn [type_of].
    eapply Step_finish; [reflexivity|reflexivity| |exact HB].
    eapply Rel_upd0; auto using KLX.
  - (* instructions *)
    cbn [parsed bind]. change (IS_ERROR PARSER_SUCCESS) with false. cbv iota.
    destruct (compile_instr _ _ _ _ _ C) as (Em & Eo & Ef & Es & Shp).
    destruct (operand_values _ _ _ _ C) as (VN & VL & SHORT & POS).
    assert (HASM : exists k, In (TMnemonic k) ts).
    { destruct Shp as [(_ & nm & r & Et)|(n & nm & r & _ & Et)]; rewrite Et; exists nm; cbn; tauto. }
    assert (exists nm, mnemonic_name m = Some nm) as (nm & Hnm).
    { rewrite Em. apply last_mnemonic_real; [exact HNM|right; exact HASM]. }
    assert (EI : instr_of toks = mkInstr m (get_addr_bitfield m) 0 0).
    { rewrite Em. apply instr_of_real; [exact HNM|exact HASM]. }
    destruct Shp as [(-> & mn & r & Et)|(n & mn & r & -> & Et)].
    + destruct (first_type _ _ _ KLX Et) as (tk & Eg & Ty & Sr & Va). rewrite Eg. cbn [bind]. rewrite Ty. cbn [type_of].
      rewrite rest0_instr by exact HASM. rewrite Ef, Eo.
      eapply instr_sim with (nm := nm).
      * eapply Rel_upd0; auto using KLX.
      * exact KLX.
      * exact HPL.
      * eapply ts_toks; eauto.
      * exact Hnm.
      * exact EI.
      * apply Bnd_BndI, HB.
      * apply HB.
      * apply HB.
      * fold ts. rewrite <- Eo. exact SHORT.
      * fold ts. rewrite <- Eo. exact VN.
      * fold ts. rewrite <- Eo. exact VL.
    + destruct (first_type _ _ _ KLX Et) as (tk & Eg & Ty & Sr & Va). rewrite Eg. cbn [bind]. rewrite Ty. cbn [type_of].
      unfold parse_label_declaration. rewrite Eg. cbn [bind].
      destruct (toks_nth 1 (TMnemonic mn)) as (p1 & Ep1); [rewrite Et; reflexivity|].
      destruct (get_tok _ _ _ _ _ _ _ KLX Ep1) as (tk1 & Eg1 & Ty1 & _). change (Z.of_nat 1) with 1 in Eg1.
      rewrite Eg1. cbn [bind]. rewrite (Sr n eq_refl). rewrite !(search_spec _ _ _ A1). cbn [bind]. rewrite Ty1. cbn [fst type_of].
      change (ty_eqb TOKEN_INSTRUCTION TOKEN_NULL || ty_eqb TOKEN_INSTRUCTION TOKEN_INSTRUCTION) with true. cbv iota.
      destruct (toks_nth 0 (TLabel n)) as (p & Ep); [rewrite Et; reflexivity|].
      pose proof (declare_ok LXR line file lines toks (st_symtab st) c 0 n p (st_pc st) KLX HPL ltac:(lia) Ep A1 HB) as D.
      cbv zeta in D. change (Z.of_nat 0) with 0 in D.
      destruct (lookup (c_env c) n) as [w|] eqn:Lk.
      * destruct D as (lexer1 & out & Ed & Rd). rewrite Ed. cbn [bind].
        change (IS_ERROR ERROR_LABEL_REDEFINITION) with true. cbv iota zeta.
        eapply Step_err; [reflexivity|reflexivity|reflexivity| |]; cbn.
        -- rewrite A9. exact Rd.
        -- exact A6.
      * destruct D as [(lexer1 & tab1 & Ed & T1 & K1 & VO)|[(u & Hu) Hs]].
        2:{ rewrite Hu. cbn [bind]. apply Step_huge. split; eauto. }
        rewrite Ed. cbn [bind]. change (IS_ERROR SYMBOL_INSERTION_SUCCESS) with false. cbv iota zeta.
        rewrite rest0_instr by exact HASM. change (@nil ascii ++ []) with (@nil ascii). rewrite A3 in *.
        rewrite Ef, Eo.
        apply Step_change with (c := c_define c n (c_pc c)); [|reflexivity|reflexivity].
        eapply instr_sim with (nm := nm).
        -- eapply Rel_upd0; auto.
        -- exact K1.
        -- exact HPL.
        -- eapply ts_toks; eauto.
        -- exact Hnm.
        -- exact EI.
        -- apply BndI_define; [exact HB|apply HB].
        -- apply HB.
        -- apply HB.
        -- fold ts. rewrite <- Eo. exact SHORT.
        -- fold ts. rewrite <- Eo. intros i v Q. apply VO; [apply POS in Q; lia|apply VN, Q].
        -- fold ts. rewrite <- Eo. intros i l Q. apply VO; [apply POS in Q; lia|eapply VL, Q].
Qed.
End ProcessLine.
