(** Prop_Oom.v -- C80: what is left of a run in which the memory runs out. *)
From Verif Require Import Base Proof_Base Model_Opcode Model_Error Model_Lexer Model_SymbolTable Model_Parser Model_Generator Model_ForwardRef Model_Main
  Spec_Isa Spec_Text Spec_Asm Spec_Diag Spec_Link Spec_Grammar Spec_Prog Spec_Report Spec_Left Spec_Total Spec_Oom
  Proof_Opcode Proof_Error Proof_Modes Proof_Lex1 Proof_Lex2 Proof_Core Proof_Parse Proof_Sim1 Proof_Table Proof_Refs Prop_Table Proof_Sim2 Proof_Sim4 Proof_Run
  Proof_Source Proof_Diag Proof_Whole Proof_Image Proof_Grammar Proof_Alloc Proof_Check Prop_Left Prop_Run Prop_Total Model_Memory Proof_Heap Proof_HeapRun Prop_Memory Proof_Oom
  Model_Args Model_Argv Model_Disk Spec_Argv Spec_Process Prop_Argv Prop_Process Prop_Safe.

Lemma takes_app : forall n st a st1 b st2, takes n st a st1 -> takes (n + zlen a) st1 b st2 -> takes n st (a ++ b) st2.
Proof.
  intros n st a st1 b st2 H. revert b st2. induction H as [n st|n st line rest toks u st1 st2 L U NE D H IH]; intros b sx K.
  - unfold zlen in K. cbn in K. rewrite Z.add_0_r in K. exact K.
  - cbn [app]. eapply takes_one; eauto. apply IH. replace (n + 1 + zlen rest) with (n + zlen (line :: rest)) by (unfold zlen; cbn [List.length]; lia). exact K.
Qed.

Lemma takes_reads : forall n st l st', takes n st l st' -> reads_on n st l st' AtEnd.
Proof. intros n st l st' H. induction H; [constructor|]. eapply on_next; eauto. Qed.

Section Run.
Variables (env : Z -> AllocEnv) (file : text) (all : list text).

Definition broken (r : M Outcome) (n : Z) (d : dstate) : Prop :=
  takes 1 (mkD 0 [] []) (firstn (Z.to_nat (n - 1)) all) d /\
  r = Ret (mkOutcome EXIT_FAILURE [] (of_data (file_of (d_done d)))).

Lemma process_lex : forall e line st, (forall toks, ~ scanned line toks) -> List.length (lx_seq (st_lexer st)) = 8%nat ->
  process_line e line st = process_line alloc_all line st /\
  (forall st', process_line alloc_all line st <> Ret (Next st')).
Proof.
  intros e line st NS H8.
  assert (Lx : forall lx tk ins out code,
       lex_line line (st_lexer st) (st_tk st) (st_instr st) (st_line_num st) = Ret (code, lx, tk, ins, out) -> code < 0 ->
       process_line e line st = process_line alloc_all line st /\ (forall st', process_line alloc_all line st <> Ret (Next st'))).
  { intros lx tk ins out code E Hc. unfold process_line. rewrite E. cbn [bind].
    assert (IS_ERROR code = true) as -> by (unfold IS_ERROR; apply Z.ltb_lt; lia). split; [reflexivity|discriminate]. }
  destruct (lex_outcomes line) as [(toks & L & N)|[(er & pos & L)|[L|L]]].
  - destruct (NS toks). split; assumption.
  - destruct (lex_line_fails line _ (st_line_num st) (st_lexer st) (st_tk st) (st_instr st) er pos H8 eq_refl L) as (lx & tk & ins & out & E & _).
    apply (Lx _ _ _ _ _ E). apply error_code_neg.
  - destruct (lex_line_many line _ (st_line_num st) (st_lexer st) (st_tk st) (st_instr st) H8 eq_refl L) as (lx & tk & ins & E).
    apply (Lx _ _ _ _ _ E). unfold ERROR_TOO_MANY_TOKENS; lia.
  - pose proof (lex_line_undef line _ (st_line_num st) (st_lexer st) (st_tk st) (st_instr st) H8 eq_refl L) as E.
    unfold process_line. rewrite E. split; [reflexivity|discriminate].
Qed.

Lemma scanned_dec : forall line, (exists toks, scanned line toks) \/ forall toks, ~ scanned line toks.
Proof.
  intro line. destruct (lex_outcomes line) as [(toks & L & N)|K]; [left; exists toks; split; assumption|]. right. intros toks S.
  assert (goes line WOk) as G by (exists toks; exact S).
  destruct K as [(er & pos & L)|[L|L]].
  - assert (goes line WFails) as G2 by (exists er, pos; exact L). pose proof (way_unique _ _ _ G G2). discriminate.
  - assert (goes line WMany) as G2 by exact L. pose proof (way_unique _ _ _ G G2). discriminate.
  - assert (goes line WHigh) as G2 by (apply undefined_high, L). pose proof (way_unique _ _ _ G G2). discriminate.
Qed.

Lemma compile_understood : forall ts cs, compile ts = inl cs -> exists u, Understood ts u.
Proof.
  intros ts cs C. destruct (compile_accepts _ _ C) as [(s & HL)|HJ]; [exists (Statement s); constructor; exact HL|apply junk_understood; exact HJ].
Qed.

Lemma run_lost : forall chs done st c d, Rel file st c -> Bnd done c -> all = done ++ map cstring chs -> DAt (located_at all) (1 + zlen done) d c ->
  takes 1 (mkD 0 [] []) done d ->
  bind (run_lines env chs st) (after_loop file) = bind (run_lines no_failure chs st) (after_loop file) \/
  exists n line toks u d', 1 <= n /\ nth_error all (Z.to_nat (n - 1)) = Some line /\ scanned line toks /\ Understood (map fst toks) u /\ u <> Statement SEnd /\
    new_label (d_env d') toks /\ env n <> alloc_all /\ broken (bind (run_lines env chs st) (after_loop file)) n d'.
Proof.
  induction chs as [|ch chs IH]; intros done st c d HR HB HA HD HT; [left; reflexivity|]. cbn [map run_lines] in *.
  set (line := cstring ch) in *. change (no_failure (st_line_num st)) with alloc_all.
  pose proof HR as [Qt Qr Qp Ql Qn Qo Q8 Qf Qs].
  destruct (scanned_dec line) as [(toks & S)|NS].
  2:{ destruct (process_lex (env (st_line_num st)) line st NS Q8) as [-> NN]. destruct (process_line alloc_all line st) as [[s|s|s]|u|] eqn:E; cbn [bind]; auto.
      exfalso. exact (NN s eq_refl). }
  assert (Pt : part all (1 + zlen done) (line :: map cstring chs)) by (exists done; split; [exact HA|reflexivity]).
  assert (Nm : named (map fst toks)) by (destruct S as [L _]; exact (Lexes_named _ _ _ _ _ L)).
  assert (Loc : forall p, place_in toks AtOperand = Some p -> located_at all (1 + zlen done) p).
  { intros p Hp. exists line, toks. split; [exact (part_nth _ _ _ _ Pt)|]. split; [exact S|exact Hp]. }
  destruct (line_lost (env (st_line_num st)) file done line toks st c HR HB S) as [E|(NE & NL & (cs & C & NC) & st' & E & G1 & G2)].
  - rewrite E.
    destruct (process_line_sim file done line toks st c HR HB (proj1 S) (proj2 S)) as [c2 st2 E1 E2 R2 B2|c2 st2 E1 E2 R2 B2|m2 p2 st2 out E1 E2 _ _ _|[(u & Hu) Hl]].
    + rewrite E2. cbn [bind].
      assert (exists cs, compile (map fst toks) = inl cs) as (cs & C).
      { unfold line_step in E1. destruct (compile (map fst toks)) as [cs|[b k]]; [eauto|discriminate]. }
      destruct (compile_understood _ _ C) as (u & U).
      destruct (understood_at (located_at all) line toks (1 + zlen done) d c u HD Nm Loc U) as [K1 K2].
      assert (NE : u <> Statement SEnd) by (intros ->; rewrite (K1 eq_refl) in E1; discriminate).
      specialize (K2 NE). destruct (do_understood (1 + zlen done) d u) as [d1|[m w]] eqn:D; [|congruence].
      destruct K2 as (c1 & E3 & D1). rewrite E1 in E3. injection E3 as <-.
      apply (IH (done ++ [line]) st2 c2 d1 R2 B2).
      * rewrite <- app_assoc. exact HA.
      * rewrite zlen_app. replace (1 + (zlen done + zlen [line])) with (1 + zlen done + 1) by (unfold zlen; cbn [List.length]; lia). exact D1.
      * eapply takes_app; [exact HT|]. eapply takes_one; eauto. constructor.
    + rewrite E2. left. reflexivity.
    + rewrite E2. left. reflexivity.
    + rewrite Hu. left. reflexivity.
  - right. destruct (compile_understood _ _ C) as (u & U). exists (1 + zlen done), line, toks, u, d.
    assert (Ln : st_line_num st = 1 + zlen done) by (rewrite Ql; apply HB).
    pose proof (zlen_pos _ done). split; [lia|]. split; [exact (part_nth _ _ _ _ Pt)|]. split; [exact S|]. split; [exact U|].
    split.
    { intros ->. destruct (understood_at (located_at all) line toks (1 + zlen done) d c _ HD Nm Loc U) as [K1 _]. specialize (K1 eq_refl).
      unfold line_step in K1. rewrite C in K1. destruct cs as [|n|n i v|v| |lab m op fl]; try discriminate; [destruct (Spec_Asm.lookup (c_env c) n); discriminate..|contradiction|].
      inversion U as [ts1 s1 HL X1 X2|lab1 m1 t1 e1 r1 more1 X1 X2 X3 X4 X5]; subst.
      - destruct (Line_compile_other _ _ HL) as (cs' & C' & ->). rewrite C in C'. discriminate.
      - unfold with_more in X5. destruct (has_tok _ _); discriminate. }
    split; [rewrite <- (r_env _ _ _ _ HD); exact NL|]. split; [rewrite <- Ln; exact NE|]. split.
    { replace (Z.to_nat (1 + zlen done - 1)) with (List.length done) by (unfold zlen; lia). rewrite HA, firstn_app, firstn_all, Nat.sub_diag. cbn [firstn].
      rewrite app_nil_r. exact HT. }
    rewrite E. cbn [bind after_loop]. rewrite G1, G2, Qs, Qo, (r_file _ _ _ _ HD). reflexivity.
Qed.
End Run.

Theorem C80_memory : forall env file src l, pieces src l ->
  assemble env file src = gaia file src \/
  exists n line toks u st, 1 <= n /\ nth_error l (Z.to_nat (n - 1)) = Some line /\ scanned line toks /\ Understood (map fst toks) u /\
    u <> Statement SEnd /\ new_label (d_env st) toks /\ env n <> alloc_all /\ breaks_off l n st (assemble env file src).
Proof.
  intros env file src l HP. pose proof (pieces_lines _ _ HP) as El. unfold gaia. rewrite !assemble_after. subst l.
  destruct (run_lost env file (lines_of src) (chunks src) [] (init_state file) core_init (mkD 0 [] [])) as [E|K].
  - constructor; cbn; auto; [apply tab_ok_init|apply refs_ok_init].
  - apply Bnd_init.
  - reflexivity.
  - apply DAt_init.
  - constructor.
  - left. exact E.
  - right. destruct K as (n & line & toks & u & d & H1 & H2 & H3 & H4 & H5 & H6 & H7 & HT & HE).
    exists n, line, toks, u, d. do 7 (split; [assumption|]). split; [exact HT|]. rewrite HE. eexists. split; [reflexivity|]. cbn [exit_code stdout binary].
    split; [reflexivity|]. split; [reflexivity|].
    destruct (reads_good _ _ _ _ _ (takes_reads _ _ _ _ HT) good_init (Forall_nil _)) as [G S]. apply (file_image d G S).
Qed.

(** a source without labels is assembled in the same way, however little memory there is *)
Theorem C80_no_labels : forall env file src l, pieces src l ->
  (forall line toks name pos, In line l -> scanned line toks -> ~ In (TLabel name, pos) toks) ->
  assemble env file src = gaia file src.
Proof.
  intros env file src l HP H. destruct (C80_memory env file src l HP) as [E|(n & line & toks & u & st & _ & Nl & S & _ & _ & (name & pos & I & _) & _)]; [exact E|].
  exfalso. apply nth_error_In in Nl. exact (H _ _ _ _ Nl S I).
Qed.

(** *** a statement that needs memory is not taken without it *)
Definition poor (e : AllocEnv) : Prop := ok_symbol e = false /\ ok_ref e = false.

Lemma declare_poor : forall rs lx tab i fd v code l' t' out, declare rs false lx tab i fd v = Ret (code, l', t', out) -> IS_ERROR code = true.
Proof.
  intros rs lx tab i fd v code l' t' out H. unfold declare in H. destruct (negb _).
  - unfold syntax_error in H. destruct (get _ _); cbn [bind] in H; try discriminate.
    destruct (print_error _ _ _ _ _); cbn [bind] in H; try discriminate. injection H as <- _ _ _. reflexivity.
  - destruct (set_value_at lx i v) as [l1|u|]; cbn [bind] in H; try discriminate.
    destruct (get (lx_seq l1) i) as [lab|u|]; cbn [bind] in H; try discriminate.
    destruct (insert_symbol _ _ _ _ _) as [[c t]|u|] eqn:E; cbn [bind] in H; try discriminate. injection H as <- _ _ _.
    unfold insert_symbol in E. destruct (int_of _); cbn [bind] in E; try discriminate. destruct (int_of _); cbn [bind] in E; try discriminate.
    cbv zeta in E. match type of E with bind ?x _ = _ => destruct x as [[t2|]|u|]; cbn [bind negb] in E; try discriminate end; injection E as <- _; reflexivity.
Qed.

Lemma declaration_poor : forall rs lx tab pc code l' t' out, parse_label_declaration rs false lx tab pc = Ret (code, l', t', out) -> IS_ERROR code = true.
Proof.
  intros rs lx tab pc code l' t' out H. unfold parse_label_declaration in H.
  do 4 (match type of H with bind ?x _ = _ => destruct x; cbn [bind] in H; try discriminate end). cbv zeta in H.
  destruct (_ || _); [eapply declare_poor; exact H|]. destruct (_ || _).
  - destruct (value_at lx 2); cbn [bind] in H; try discriminate. eapply declare_poor; exact H.
  - destruct (ty_eqb _ _).
    + destruct (value_at lx 2); cbn [bind] in H; try discriminate. eapply declare_poor; exact H.
    + unfold plain_error in H. destruct (print_error _ _ _ _ _); cbn [bind] in H; try discriminate. injection H as <- _ _ _. reflexivity.
Qed.

Lemma instruction_poor : forall e b st st', poor e -> process_instruction e b st = Ret (Next st') ->
  st_symtab st' = st_symtab st /\ st_unresolved st' = st_unresolved st.
Proof.
  intros e b st st' [_ P] H. unfold process_instruction in H.
  destruct (find_operand (st_lexer st)) as [op|u|]; cbn [bind] in H; try discriminate.
  destruct (parse_operand (st_lexer st) (st_instr st) op (st_symtab st)) as [[[os lx1] out1]|u|]; cbn [bind] in H; try discriminate.
  destruct (IS_ERROR os); try discriminate.
  destruct (parse_addr_mode lx1 (st_instr st) op os) as [[[rc ins2] out2]|u|]; cbn [bind] in H; try discriminate.
  match type of H with bind ?x _ = _ => assert (K : forall u f, x = Ret (Some (u, f)) -> u = st_unresolved st) end.
  { intros u f K. destruct (rc =? FORWARD_REFERENCE).
    - destruct op as [i|]; try discriminate. destruct (get _ _); cbn [bind] in K; try discriminate. rewrite P in K. cbn in K. discriminate.
    - destruct (IS_ERROR rc); try discriminate. injection K as <- _. reflexivity. }
  match type of H with bind ?x _ = _ => destruct x as [[[u f]|]|x'|]; cbn [bind] in H; try discriminate end.
  rewrite (K u f eq_refl) in H.
  match type of H with bind ?x _ = _ => destruct x as [[[[[wb f3] lx3] i3] out3]|x'|]; cbn [bind] in H; try discriminate end.
  destruct (IS_ERROR wb); try discriminate.
  do 3 (destruct (int_of _); cbn [bind] in H; try discriminate). injection H as <-. auto.
Qed.

Lemma line_poor : forall e b st st', poor e -> process_line e b st = Ret (Next st') ->
  st_symtab st' = st_symtab st /\ st_unresolved st' = st_unresolved st.
Proof.
  intros e b st st' P H. unfold process_line in H.
  destruct (lex_line _ _ _ _ _) as [[[[[rc lx1] tk1] i1] out1]|u|]; cbn [bind] in H; try discriminate.
  destruct (IS_ERROR rc); try discriminate.
  destruct (parse_line lx1) as [[[rc2 lx2] out2]|u|]; cbn [bind] in H; try discriminate. destruct (IS_ERROR rc2); try discriminate.
  destruct (get (lx_seq lx2) 0) as [first|u|]; cbn [bind] in H; try discriminate.
  assert (Rest : forall st1, match i_mnemonic i1 with
      | NULL_MNEMONIC =>
          line_num <- int_of (st_line_num st1 + 1) ;;
          Ret (Next (mkSt (st_symtab st1) (st_unresolved st1) (st_pc st1) line_num
                          (st_written st1) (st_total st1) (st_out st1) (st_lexer st1)
                          (st_tk st1) (st_instr st1) (st_stdout st1)))
      | _ => process_instruction e b st1
      end = Ret (Next st') -> st_symtab st' = st_symtab st1 /\ st_unresolved st' = st_unresolved st1).
  { intros st1 K. destruct (i_mnemonic i1); try (eapply instruction_poor; [exact P|exact K]).
    destruct (int_of (st_line_num st1 + 1)); cbn [bind] in K; try discriminate. inversion K; subst. auto. }
  destruct (tk_type first); try discriminate; try exact (Rest _ H).
  all: destruct (parse_label_declaration _ _ _ _ _) as [[[[code lx3] tab3] out3]|u|] eqn:D; cbn [bind] in H; try discriminate;
    destruct P as [P1 P2]; rewrite P1 in D; apply declaration_poor in D; rewrite D in H; discriminate.
Qed.

Lemma Forall2_len : forall A B (R : A -> B -> Prop) l l', Forall2 R l l' -> List.length l = List.length l'.
Proof. intros A B R l l' H. induction H; cbn; congruence. Qed.

Lemma run_poor : forall env file all n d line toks u d1, (forall k, k < n -> env k = alloc_all) -> poor (env n) ->
  scanned line toks -> Understood (map fst toks) u -> u <> Statement SEnd -> do_understood n d u = inl d1 -> asks_memory d d1 ->
  forall pre n0 d0, takes n0 d0 pre d -> n = n0 + zlen pre ->
  forall chs post done st c, map cstring chs = pre ++ line :: post -> all = done ++ map cstring chs -> zlen all < FEW ->
  Rel file st c -> Bnd done c -> n0 = 1 + zlen done -> DAt (located_at all) n0 d0 c ->
  bind (run_lines env chs st) (after_loop file) = Ret (mkOutcome EXIT_FAILURE [] (of_data (file_of (d_done d)))).
Proof.
  intros env file all n d line toks u d1 HE HP S U NE D As pre n0 d0 HT.
  induction HT as [n0 d0|n0 d0 line0 rest toks0 u0 d2 d3 S0 U0 NE0 D0 HT IH]; intros En chs post done st c Hc HA HF HR HB Hn HD;
    (destruct chs as [|ch chs]; [discriminate Hc|]); cbn [map app] in Hc; injection Hc as Hl Hc; cbn [run_lines];
    pose proof HR as [Qt Qr Qp Ql Qn Qo Q8 Qf Qs];
    assert (Ln : st_line_num st = n0) by (rewrite Ql, (b_line _ _ HB); lia); rewrite Ln;
    assert (Pt : part all n0 (cstring ch :: map cstring chs)) by (exists done; split; [exact HA|exact Hn]);
    assert (Fd : zlen done < FEW) by (pose proof (zlen_pos _ (map cstring (ch :: chs))); rewrite HA, zlen_app in HF; lia).
  - assert (n = n0) as -> by (rewrite En; unfold zlen; cbn; lia). clear En.
    assert (Nm : named (map fst toks)) by (destruct S as [L _]; exact (Lexes_named _ _ _ _ _ L)).
    rewrite Hl in *.
    assert (Loc : forall p, place_in toks AtOperand = Some p -> located_at all n0 p).
    { intros p Hp. exists line, toks. split; [exact (part_nth _ _ _ _ Pt)|]. split; [exact S|exact Hp]. }
    destruct (line_lost (env n0) file done line toks st c HR HB S) as [E|(_ & _ & _ & st' & E & G1 & G2)].
    2:{ rewrite E. cbn [bind after_loop]. rewrite G1, G2, Qs, Qo, (r_file _ _ _ _ HD). reflexivity. }
    exfalso.
    destruct (understood_at (located_at all) line toks n0 d0 c u HD Nm Loc U) as [_ K2]. specialize (K2 NE). rewrite D in K2.
    destruct K2 as (c1 & E3 & D1).
    destruct (process_line_sim file done line toks st c HR HB (proj1 S) (proj2 S)) as [c2 st2 E1 E2 R2 B2|c2 st2 E1 E2 R2 B2|m2 p2 st2 out E1 E2 _ _ _|[(x & Hu) Hl2]]; try congruence; [|lia].
    rewrite E1 in E3. injection E3 as <-. rewrite E2 in E. destruct (line_poor _ _ _ _ HP E) as [T1 T2].
    destruct R2 as [Qt' Qr' _ _ _ _ _ _ _]. rewrite T1 in Qt'. rewrite T2 in Qr'.
    pose proof (t_count _ _ Qt) as C1. pose proof (t_count _ _ Qt') as C2. pose proof (u_curr _ _ Qr) as C3. pose proof (u_curr _ _ Qr') as C4.
    pose proof (Forall2_len _ _ _ _ _ (r_refs _ _ _ _ HD)) as C5. pose proof (Forall2_len _ _ _ _ _ (r_refs _ _ _ _ D1)) as C6.
    rewrite (r_env _ _ _ _ HD) in C1. rewrite (r_env _ _ _ _ D1) in C2. destruct As as [As|As]; [lia|]; change (Datatypes.length (filter is_open (d_done d0)) < Datatypes.length (filter is_open (d_done d1)))%nat in As; lia.
  - assert (Pn : n0 < n) by (pose proof (zlen_pos _ rest); rewrite En; unfold zlen in *; cbn [List.length]; lia).
    rewrite (HE n0 Pn). rewrite Hl in *.
    assert (Nm : named (map fst toks0)) by (destruct S0 as [L _]; exact (Lexes_named _ _ _ _ _ L)).
    assert (Loc : forall p, place_in toks0 AtOperand = Some p -> located_at all n0 p).
    { intros p Hp. exists line0, toks0. split; [exact (part_nth _ _ _ _ Pt)|]. split; [exact S0|exact Hp]. }
    destruct (understood_at (located_at all) line0 toks0 n0 d0 c u0 HD Nm Loc U0) as [_ K2]. specialize (K2 NE0). rewrite D0 in K2.
    destruct K2 as (c1 & E3 & D1).
    destruct (process_line_sim file done line0 toks0 st c HR HB (proj1 S0) (proj2 S0)) as [c2 st2 E1 E2 R2 B2|c2 st2 E1 E2 R2 B2|m2 p2 st2 out E1 E2 _ _ _|[(x & Hu) Hl2]]; try congruence; [|lia].
    rewrite E1 in E3. injection E3 as <-. rewrite E2. cbn [bind].
    apply (IH D As) with (post := post) (done := done ++ [line0]) (c := c2); auto.
    + rewrite En. unfold zlen. cbn [List.length]. lia.
    + rewrite <- app_assoc. cbn [app]. rewrite HA. cbn [map]. rewrite Hl. reflexivity.
    + rewrite zlen_app. unfold zlen in *. cbn [List.length]. lia.
Qed.


Theorem C80_asks : forall env file src l n d line toks u d1, small src -> pieces src l -> 1 <= n ->
  takes 1 (mkD 0 [] []) (firstn (Z.to_nat (n - 1)) l) d -> nth_error l (Z.to_nat (n - 1)) = Some line ->
  scanned line toks -> Understood (map fst toks) u -> u <> Statement SEnd -> do_understood n d u = inl d1 -> asks_memory d d1 ->
  (forall k, k < n -> env k = alloc_all) -> ok_symbol (env n) = false -> ok_ref (env n) = false ->
  breaks_off l n d (assemble env file src).
Proof.
  intros env file src l n d line toks u d1 HB HP Hn HT Hl S U NE D As HE P1 P2. split; [exact HT|].
  pose proof (pieces_lines _ _ HP) as El. rewrite assemble_after.
  destruct (nth_error_split _ _ Hl) as (pre & post & Ea & Ep).
  assert (Ef : firstn (Z.to_nat (n - 1)) l = pre) by (rewrite Ea, <- Ep, firstn_app, firstn_all, Nat.sub_diag; cbn [firstn]; apply app_nil_r).
  rewrite Ef in HT.
  assert (R : bind (run_lines env (chunks src) (init_state file)) (after_loop file) = Ret (mkOutcome EXIT_FAILURE [] (of_data (file_of (d_done d))))).
  { refine (run_poor env file l n d line toks u d1 HE (conj P1 P2) S U NE D As pre 1 _ HT _ (chunks src) post [] (init_state file) core_init _ _ _ _ _ _ _).
    - unfold zlen. lia.
    - rewrite <- Ea, El. reflexivity.
    - rewrite El. reflexivity.
    - rewrite El. unfold lines_of, zlen. rewrite map_length. pose proof (chunks_length src). unfold small in HB. unfold FEW. lia.
    - constructor; cbn; auto; [apply tab_ok_init|apply refs_ok_init].
    - apply Bnd_init.
    - reflexivity.
    - apply DAt_init. }
  rewrite R. eexists. split; [reflexivity|]. cbn [exit_code stdout binary]. split; [reflexivity|]. split; [reflexivity|].
  destruct (reads_good _ _ _ _ _ (takes_reads _ _ _ _ HT) good_init (Forall_nil _)) as [G So]. apply (file_image d G So).
Qed.

(** the first tables do not fit: a report, and nothing is written *)
Definition no_memory_report : text := T "ERROR: could not allocate enough memory during assembly" ++ [ch_nl; ch_nl].
Theorem C80_start : forall env fs src out, main false env fs src out = Ret (1, no_memory_report, fs).
Proof. intros. reflexivity. Qed.

(** a run of the whole program, whatever each single call of malloc, calloc and realloc answers *)
Theorem C80_process : forall orc fs src out code printed fs' h,
  (forall bytes, fs_file fs src = Some bytes -> legible (map chr bytes)) ->
  main_h orc fs src out = Ret (code, printed, fs', h) ->
  main true no_failure fs src out = Ret (code, printed, fs') \/
  (code = 1 /\ printed = no_memory_report /\ fs' = fs) \/
  (exists bytes l n line toks st image, fs_file fs src = Some bytes /\ pieces (map chr bytes) l /\ 1 <= n /\
     takes 1 (mkD 0 [] []) (firstn (Z.to_nat (n - 1)) l) st /\
     nth_error l (Z.to_nat (n - 1)) = Some line /\ scanned line toks /\ new_label (d_env st) toks /\
     code = 1 /\ printed = [] /\ fs_file fs' out = Some image /\ is_image (first_writes 0 (d_done st)) image /\
     forall name, text_eqb name out = false -> fs_file fs' name = fs_file fs name).
Proof.
  intros orc fs src out code printed fs' h H E. destruct (legible_main true no_failure fs src out H) as (r & R).
  destruct (main_h_spec orc fs src out r R (print_none _ _ _))
    as ([[c0 t0] f0] & h0 & w & leak & E0 & _ & _ & _ & _ & (ok & env & MM) & C).
  rewrite E0 in E. injection E as -> -> -> ->. cbn [snd] in C. clear R.
  destruct ok.
  2:{ right. left. rewrite C80_start in MM. injection MM as <- <- <-. auto. }
  unfold main in MM |- *. cbn [negb] in MM |- *.
  destruct (fs_file fs src) as [bytes|] eqn:EF; [|left; exact MM].
  destruct (fs_creatable fs out); cbn [negb] in MM |- *; [|left; exact MM].
  cbv zeta in MM |- *.
  assert (Esrc : fs_file (fs_write fs out []) src = if text_eqb src out then Some [] else Some bytes).
  { unfold fs_write. cbn [fs_file]. destruct (text_eqb src out); auto. }
  rewrite Esrc in MM |- *.
  set (source := match (if text_eqb src out then Some [] else Some bytes) with Some c => map chr c | None => [] end) in *.
  destruct (C74_pieces source) as (l & HP).
  destruct (C80_memory env src source l HP) as [Ea|(n & line & toks & u & st & H1 & H2 & H3 & _ & _ & H6 & _ & HT & o & Eo & O1 & O2 & O3)].
  - left. rewrite Ea in MM. exact MM.
  - right. right. rewrite Eo in MM. cbn [bind] in MM. injection MM as M1 M2 M3.
    destruct (text_eqb src out) eqn:Es.
    { exfalso. subst source. rewrite (pieces_lines _ _ HP) in H2. cbn in H2. destruct (Z.to_nat (n - 1)); discriminate. }
    exists bytes, l, n, line, toks, st, (binary o). split; [reflexivity|]. split; [exact HP|]. repeat (split; [assumption|]).
    split; [congruence|]. split; [congruence|]. split; [|split; [exact O3|exact C]].
    rewrite <- M3. unfold fs_write. cbn [fs_file]. assert (text_eqb out out = true) as -> by (apply text_eqb_eq; reflexivity). reflexivity.
Qed.

(** the same of an invocation with a command line and a file system with links: either it goes as with memory in plenty, or
    the first tables did not fit and nothing changes, or it breaks off in a line with a new label, prints nothing, fails, and
    leaves the code of the lines in front in the output file and in no other *)
Theorem C80_disk : forall info ok env d table words, repaired table -> sound d ->
  process info ok env d table words = process info true no_failure d table words \/
  process info ok env d table words = Ret (1, no_memory_report, d) \/
  exists outs src f g l n line toks st image d',
    Command words outs [src] /\ readable d src f /\ goes_to d (last outs (T "a.out")) g /\ f <> g /\
    pieces (map chr (dk_data d f)) l /\ 1 <= n /\
    takes 1 (mkD 0 [] []) (firstn (Z.to_nat (n - 1)) l) st /\
    nth_error l (Z.to_nat (n - 1)) = Some line /\ scanned line toks /\ new_label (d_env st) toks /\
    process info ok env d table words = Ret (1, [], d') /\
    written d (last outs (T "a.out")) g image d' /\ is_image (first_writes 0 (d_done st)) image.
Proof.
  intros info ok env d table words R S. rewrite !process_is by exact R.
  destruct (verdict_cases _ words (le_n _)) as [(outs & args & C)|[(r & A)|V]].
  - rewrite (verdict_command _ _ _ C), parse_command.
    destruct args as [|src [|y args]]; [left; reflexivity| |left; reflexivity]. cbn [arg_src arg_out].
    unfold main_disk. cbn [negb]. destruct ok; cbn [negb]; [|right; left; reflexivity].
    pose proof (open_read_ok d src) as OR. destruct (open_read d src) as [f|]; [|left; reflexivity].
    pose proof (open_write_ok d (last outs (T "a.out")) S) as OW. destruct (open_write d (last outs (T "a.out"))) as [[g d1]|]; [|left; reflexivity].
    destruct OW as (G & E & O & W). cbv zeta.
    set (source := map chr (dk_data d1 f)).
    destruct (C74_pieces source) as (l & P).
    destruct (C80_memory env src source l P) as [Ea|(n & line & toks & u & st & H1 & H2 & H3 & _ & _ & H6 & _ & HT & o & Eo & O1 & O2 & O3)].
    + left. rewrite Ea. reflexivity.
    + right. right. assert (f <> g).
      { intros ->. unfold source in P. rewrite E in P. rewrite (pieces_lines _ _ P) in H2. cbn in H2. destruct (Z.to_nat (n - 1)); discriminate. }
      exists outs, src, f, g, l, n, line, toks, st, (binary o). eexists. do 4 (split; [assumption|]).
      split; [unfold source in P; rewrite O in P by assumption; exact P|]. do 5 (split; [assumption|]).
      split; [rewrite Eo; cbn [bind]; rewrite O1, O2; reflexivity|]. split; [apply W|exact O3].
  - rewrite (verdict_asks _ _ A). left. reflexivity.
  - rewrite V. left. reflexivity.
Qed.

(** the second line declares a label and refers to one that has no value: the first line is in the file *)
Definition oom_src : text := T " LDA #5" ++ [ch_nl] ++ T "AGAIN JMP OVER" ++ [ch_nl] ++ T "OVER NOP" ++ [ch_nl].
Definition oom_pieces : list text := [T " LDA #5" ++ [ch_nl]; T "AGAIN JMP OVER" ++ [ch_nl]; T "OVER NOP" ++ [ch_nl]].
Definition oom_env (n : Z) : AllocEnv := if n =? 2 then mkAlloc true false false true else alloc_all.

Example C80_case : exists d u d1 toks,
  small oom_src /\ pieces oom_src oom_pieces /\ takes 1 (mkD 0 [] []) (firstn 1 oom_pieces) d /\
  scanned (T "AGAIN JMP OVER" ++ [ch_nl]) toks /\ Understood (map fst toks) u /\ u <> Statement SEnd /\
  do_understood 2 d u = inl d1 /\ asks_memory d d1 /\ open_operands d1 = 1%nat /\
  assemble oom_env (T "a.asm") oom_src = Ret (mkOutcome 1 [] [169; 5]).
Proof.
  assert (N : forall t, existsb (Ascii.eqb ch_nl) t = false -> ~ In ch_nl t).
  { intros t H I. assert (existsb (Ascii.eqb ch_nl) t = true); [|congruence]. apply existsb_exists. exists ch_nl. split; [exact I|apply Ascii.eqb_refl]. }
  eexists _, (Statement (SInstr (Some (T "AGAIN")) "JMP" (ODir (Lab (T "OVER"))))), _,
    [(TLabel (T "AGAIN"), 0%nat); (TMnemonic "JMP", 6%nat); (TLabel (T "OVER"), 10%nat)].
  split; [vm_compute; reflexivity|]. split.
  { exists oom_pieces. split; [|reflexivity].
    apply (cut_line (T " LDA #5") ((T "AGAIN JMP OVER" ++ [ch_nl]) ++ T "OVER NOP" ++ [ch_nl])); [apply N; reflexivity|vm_compute; lia|].
    apply (cut_line (T "AGAIN JMP OVER") (T "OVER NOP" ++ [ch_nl])); [apply N; reflexivity|vm_compute; lia|].
    apply (cut_line (T "OVER NOP") [] []); [apply N; reflexivity|vm_compute; lia|constructor]. }
  split.
  { cbn [firstn oom_pieces]. eapply (takes_one _ _ _ _ _ (Statement (SInstr None "LDA" (OImm (Num 5))))).
    - apply scanned_check; [vm_compute; reflexivity|cbn; lia].
    - apply Understood_line. apply (Line_instr "LDA" [THash; TNumber 5] (OImm (Num 5))). repeat constructor.
    - discriminate.
    - vm_compute; reflexivity.
    - constructor. }
  split; [apply scanned_check; [vm_compute; reflexivity|cbn; lia]|].
  split; [apply Understood_line; apply (Line_label_instr (T "AGAIN") "JMP" [TLabel (T "OVER")] (ODir (Lab (T "OVER")))); repeat constructor|].
  split; [discriminate|]. split; [vm_compute; reflexivity|]. split; [left; vm_compute; lia|]. split; vm_compute; reflexivity.
Qed.

(** an invocation that breaks off: the new output file holds the first line's code, and the exit status is 1 *)
Definition oom_disk : Disk := mkDisk (dk_leads demo_disk) (dk_entry demo_disk)
  (fun f => if Nat.eqb f 0 then map code oom_src else []) (dk_reads demo_disk) (dk_writes demo_disk) (dk_creates demo_disk) (dk_next demo_disk).
Example C80_disk_case : repaired demo_table /\ sound oom_disk /\
  exists d', process (fun _ => []) true oom_env oom_disk demo_table [T "p.asm"; T "-o"; T "c"] = Ret (1, [], d') /\
    names d' (T "c") 1 /\ dk_data d' 1 = [169; 5].
Proof.
  split; [exact demo_repaired|]. split; [exact demo_sound|].
  destruct (process (fun _ => []) true oom_env oom_disk demo_table [T "p.asm"; T "-o"; T "c"]) as [[[code text] d']| |] eqn:E;
    vm_compute in E; try discriminate.
  injection E as <- <- <-. eexists. split; [reflexivity|]. split; [exists (T "new.bin"); split; vm_compute; reflexivity|vm_compute; reflexivity].
Qed.
