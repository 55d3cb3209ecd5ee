(** Proof_Run.v -- a whole run of the assembler follows the machine of Proof_Core. *)
From Verif Require Import Base Proof_Base Model_Opcode Model_Error Model_Lexer Model_SymbolTable
  Model_Parser Model_ForwardRef Model_Generator Model_Main Spec_Isa Spec_Text Spec_Asm Spec_Link
  Spec_Report Proof_Opcode Proof_Chars Proof_Error Proof_Lex1 Proof_Lex2 Proof_Prime Proof_Table
  Proof_Refs Proof_Core Proof_Parse Proof_Sim1 Prop_Table Proof_Sim2 Proof_Sim3 Proof_Sim4.

(** ** Runs of the machine *)
Inductive final :=
| FinOk (c : core) (f : OFile)                                 (* success *)
| FinErr (message : string) (n : Z) (pos : option nat) (f : OFile)  (* a reported error in line n *)
| FinSilent (f : OFile)                                        (* failure without report *)
| FinUndef.                                                    (* undefined behaviour *)

Definition close (c : core) : final :=
  match finish (c_env c) (c_refs c) (c_file c) with
  | FDone f => FinOk c f
  | FErr m r f => FinErr m (fr_line_num r) (Some (fr_operand_location r)) f
  end.

Inductive Run : list text -> core -> final -> Prop :=
| Run_done c : Run [] c (close c)
| Run_next line lines toks c c' r :
    Lexes wr true 0 line toks -> (List.length toks <= 8)%nat ->
    line_step line toks c = CNext c' -> Run lines c' r -> Run (line :: lines) c r
| Run_finish line lines toks c c' :
    Lexes wr true 0 line toks -> (List.length toks <= 8)%nat ->
    line_step line toks c = CFinish c' -> Run (line :: lines) c (close c')
| Run_err line lines toks c m pos :
    Lexes wr true 0 line toks -> (List.length toks <= 8)%nat ->
    line_step line toks c = CErr m pos -> Run (line :: lines) c (FinErr m (c_line c) pos (c_file c))
| Run_lex line lines c e pos :
    LexFails wr line e pos ->
    Run (line :: lines) c (FinErr (message_of_error e) (c_line c) (Some pos) (c_file c))
| Run_many line lines c :
    TooManyTokens wr line -> Run (line :: lines) c (FinSilent (c_file c))
| Run_undef line lines c :
    LexUndefined line -> Run (line :: lines) c FinUndef.

Lemma Run_total : forall lines c, exists r, Run lines c r.
Proof.
  induction lines as [|line lines IH]; intro c.
  - eexists. constructor.
  - destruct (lex_outcomes line) as [(toks & L & N)|[(e & pos & H)|[H|H]]].
    + destruct (line_step line toks c) eqn:E.
      * destruct (IH c0) as (r & R). exists r. eapply Run_next; eauto.
      * eexists. eapply Run_finish; eauto.
      * eexists. eapply Run_err; eauto.
    + eexists. eapply Run_lex; eauto.
    + eexists. eapply Run_many; eauto.
    + eexists. eapply Run_undef; eauto.
Qed.

(** ** The final loop *)
Lemma resolve_all_sim : forall file lines e refs i st f0,
  tab_ok (st_symtab st) e -> st_out st = f0 -> lx_file (st_lexer st) = file -> st_stdout st = [] ->
  Forall (ref_good lines) refs ->
  (forall n v, lookup e n = Some v -> 0 <= v <= 65535 + 3 * zlen lines) ->
  (forall k r, nth_error refs k = Some r ->
     get (un_refs (st_unresolved st)) (i + Z.of_nat k) = Ret (Some r)) ->
  huge lines (resolve_all file (List.length refs) i st) \/
  match finish e refs f0 with
  | FDone f => resolve_all file (List.length refs) i st = Ret (Finish (st_set_out st f []))
  | FErr m r f => exists out line,
      resolve_all file (List.length refs) i st = Ret (Abort (st_set_out st f out)) /\
      1 <= fr_line_num r /\ nth_error lines (Z.to_nat (fr_line_num r - 1)) = Some line /\
      Report file (fr_line_num r) m line (Some (fr_operand_location r)) out
  end.
Proof.
  intros file lines e. induction refs as [|r refs IH]; intros i st f0 Ht Ho Hf Hs Hg Hv Hr.
  - right. cbn. unfold st_set_out. rewrite <- Ho, app_nil_r. destruct st; reflexivity.
  - cbn [List.length resolve_all finish].
    specialize (Hr 0%nat r eq_refl) as Hr0. rewrite Z.add_0_r in Hr0. rewrite Hr0. cbn [bind].
    rewrite (search_spec _ _ _ Ht). cbn [bind].
    inversion Hg as [|? ? [(line & L1 & L2 & Sol & Src) Gk Gs Gf Gp] Hg']; subst.
    destruct (strip_source_ok line _ Sol) as (s & trail & Es & El & Sol' & Ft).
    assert (Src' : fr_source_line r = s) by (rewrite Src; unfold stripped; rewrite Es; reflexivity).
    destruct (solid_visible _ _ Sol') as [Vis Len].
    assert (Rep : forall code m, message_of code = Some m ->
      exists out, print_error (Some (fr_source_line r)) code (Some (fr_operand_location r)) (lx_file (st_lexer st)) (fr_line_num r) = Ret out
        /\ Report (lx_file (st_lexer st)) (fr_line_num r) m line (Some (fr_operand_location r)) out).
    { intros code m Hm. rewrite Src'.
      destruct (print_error_report s code (Some (fr_operand_location r)) (lx_file (st_lexer st)) (fr_line_num r) m)
        as (out & Eo & Ro); auto; [lia|].
      exists out. split; [exact Eo|]. apply stripped_report; [exact Sol|]. unfold stripped. rewrite Es. exact Ro. }
    destruct (lookup e (fr_label r)) as [v|] eqn:Lk.
    2:{ change (IS_ERROR ERROR_SYMBOL_NOT_FOUND) with true. cbn match.
        destruct (Rep ERROR_MISSING_LABEL_DEFINITION "label definition was not found"%string eq_refl) as (out & -> & Ro).
        cbn [bind]. right. exists out, line. auto. }
    pose proof (Hv _ _ Lk) as Bv.
    assert (IS_ERROR v = false) as -> by (unfold IS_ERROR; apply Z.ltb_ge; lia).
    (* the continuation *)
    assert (Next : forall w f1, 0 < w ->
      huge lines (let st' := st_set_out st f1 [] in
        if IS_ERROR w then Ret (Abort st') else resolve_all (lx_file (st_lexer st)) (List.length refs) (i + 1) st') \/
      match finish e refs f1 with
      | FDone f => (let st' := st_set_out st f1 [] in
        if IS_ERROR w then Ret (Abort st') else resolve_all (lx_file (st_lexer st)) (List.length refs) (i + 1) st')
          = Ret (Finish (st_set_out st f []))
      | FErr m0 r0 f => exists out line0,
          (let st' := st_set_out st f1 [] in
        if IS_ERROR w then Ret (Abort st') else resolve_all (lx_file (st_lexer st)) (List.length refs) (i + 1) st')
            = Ret (Abort (st_set_out st f out)) /\
          1 <= fr_line_num r0 /\ nth_error lines (Z.to_nat (fr_line_num r0 - 1)) = Some line0 /\
          Report (lx_file (st_lexer st)) (fr_line_num r0) m0 line0 (Some (fr_operand_location r0)) out
      end).
    { intros w f1 Hw. cbn zeta. assert (IS_ERROR w = false) as -> by (unfold IS_ERROR; apply Z.ltb_ge; lia).
      specialize (IH (i + 1) (st_set_out st f1 []) f1).
      destruct IH as [IH|IH]; auto; cbn [st_set_out st_symtab st_out st_lexer st_stdout st_unresolved]; auto.
      - rewrite Hs. reflexivity.
      - intros k r0 Hk. replace (i + 1 + Z.of_nat k) with (i + Z.of_nat (S k)) by lia. apply Hr. exact Hk.
      - right. destruct (finish e refs f1) as [f|m0 r0 f].
        + rewrite IH. f_equal. unfold st_set_out; cbn. rewrite Hs. reflexivity.
        + destruct IH as (out & l0 & E & R). exists out, l0. rewrite E. split; [|exact R].
          unfold st_set_out; cbn. rewrite Hs. reflexivity. }
    unfold resolve_forward_ref. rewrite Gs.
    assert (Fl : (i_bitflag (fr_instr r) =? 0) = false) by (apply Z.eqb_neq; exact Gf).
    assert (Op : get_opcode (fr_instr r) = opcode_of (i_mnemonic (fr_instr r)) (i_bitflag (fr_instr r))).
    { reflexivity. }
    destruct (is_branch (i_mnemonic (fr_instr r))) eqn:Br.
    + change (BRANCH_FORWARD_REFERENCE =? BRANCH_FORWARD_REFERENCE) with true. cbn match.
      destruct (branch_offset_ok (fr_pc r) v) as [Eb|[(u & Eb) Nb]].
      2:{ left. rewrite Eb. cbn [bind]. split; [eauto|]. unfold sane in Nb. unfold FEW.
          pose proof (zlen_pos _ lines). lia. }
      rewrite Eb. destruct (branch_offset (fr_pc r) v) as [d|] eqn:Ed; cbn [bind].
      * pose proof (branch_offset_range _ _ _ Ed) as Rd.
        assert ((d =? ERROR_TOO_BIG_OFFSET) = false) as -> by (apply Z.eqb_neq; unfold ERROR_TOO_BIG_OFFSET; lia).
        rewrite Fl. cbn [negb bind]. rewrite Op.
        assert (Z.land d 255 = d) as ->.
        { change 255 with (Z.ones 8). rewrite Z.land_ones by lia. apply Z.mod_small. lia. }
        apply Next. reflexivity.
      * change (ERROR_TOO_BIG_OFFSET =? ERROR_TOO_BIG_OFFSET) with true. cbn match.
        destruct (Rep ERROR_TOO_BIG_OFFSET "branch offset too far away"%string eq_refl) as (out & -> & Ro).
        cbn [bind]. right. exists out, line. auto.
    + change (JUMP_FORWARD_REFERENCE =? BRANCH_FORWARD_REFERENCE) with false.
      change (JUMP_FORWARD_REFERENCE =? JUMP_FORWARD_REFERENCE) with true. cbn match.
      rewrite Fl. cbn [negb bind]. rewrite Op. apply Next. reflexivity.
Qed.

(** ** The whole loop *)
Definition settled (file : text) (lines : list text) (r : M Outcome) (f : final) : Prop :=
  match f with
  | FinOk c fl => r = Ret (mkOutcome EXIT_SUCCESS (summary (c_total c) (zlen (c_env c))) (of_data fl))
  | FinErr m n pos fl => exists out line, r = Ret (mkOutcome EXIT_FAILURE out (of_data fl)) /\
      1 <= n /\ nth_error lines (Z.to_nat (n - 1)) = Some line /\ Report file n m line pos out
  | FinSilent fl => r = Ret (mkOutcome EXIT_FAILURE [] (of_data fl))
  | FinUndef => r = Undef UbCtype
  end.

(** the part of [assemble] after the loop *)
Definition after_loop (file : text) (r : LineRes) : M Outcome :=
  match r with
  | Abort st => Ret (mkOutcome EXIT_FAILURE (st_stdout st) (of_data (st_out st)))
  | Next st | Finish st =>
    r2 <- resolve_all file (Z.to_nat (un_curr (st_unresolved st))) 0 st ;;
    match r2 with
    | Abort st2 => Ret (mkOutcome EXIT_FAILURE (st_stdout st2) (of_data (st_out st2)))
    | Next st2 | Finish st2 =>
      Ret (mkOutcome EXIT_SUCCESS
                     (st_stdout st2 ++ summary (st_total st2) (tab_count (st_symtab st2)))
                     (of_data (st_out st2)))
    end
  end.

Lemma assemble_after : forall env file src,
  assemble env file src = bind (run_lines env (chunks src) (init_state file)) (after_loop file).
Proof. reflexivity. Qed.

Lemma close_sim : forall file lines st c, Rel file st c -> Bnd lines c ->
  settled file lines (after_loop file (Finish st)) (close c) \/
  huge lines (after_loop file (Finish st)).
Proof.
  intros file lines st c [Qt Qr Qp Ql Qn Qo Q8 Qf Qs] [Bl Bp Bt Be Br Bv Bg].
  cbn [after_loop]. rewrite (u_curr _ _ Qr), Nat2Z.id.
  destruct (resolve_all_sim file lines (c_env c) (c_refs c) 0 st (c_file c)) as [H|H]; auto.
  - intros k r Hk. apply (refs_get _ _ _ _ Qr Hk).
  - right. destruct H as [(u & E) H]. rewrite E. cbn [bind]. split; eauto.
  - left. unfold close. destruct (finish (c_env c) (c_refs c) (c_file c)) as [f|m r f].
    + rewrite H. cbn [bind st_set_out st_stdout st_out st_total st_symtab settled]. rewrite Qs, Qn.
      rewrite (t_count _ _ Qt). reflexivity.
    + destruct H as (out & line & E & R). rewrite E. cbn [bind st_set_out st_stdout st_out settled].
      rewrite Qs. exists out, line. auto.
Qed.

Lemma settled_more : forall file lines more r f, settled file lines r f -> settled file (lines ++ more) r f.
Proof.
  intros file lines more r f H. destruct f; cbn in *; auto.
  destruct H as (out & line & A & B & C & D). exists out, line. repeat split; auto.
  rewrite nth_error_app1; [exact C|]. apply nth_error_Some. congruence.
Qed.

Lemma huge_more : forall A lines more (r : M A), huge lines r -> huge (lines ++ more) r.
Proof. intros A lines more r [H L]. split; auto. rewrite zlen_app. pose proof (zlen_pos _ more). lia. Qed.

Lemma run_sim : forall file chs done st c r, Rel file st c -> Bnd done c ->
  Run (map cstring chs) c r ->
  settled file (done ++ map cstring chs) (bind (run_lines no_failure chs st) (after_loop file)) r \/
  huge (done ++ map cstring chs) (bind (run_lines no_failure chs st) (after_loop file)).
Proof.
  intros file. induction chs as [|ch chs IH]; intros done st c r HR HB Rn.
  - cbn [map run_lines bind] in *. inversion Rn; subst. rewrite app_nil_r. apply close_sim; auto.
  - cbn [map run_lines] in *. set (line := cstring ch) in *. change (no_failure (st_line_num st)) with alloc_all.
    assert (Lx : forall lx tk ins out code,
       lex_line line (st_lexer st) (st_tk st) (st_instr st) (st_line_num st) = Ret (code, lx, tk, ins, out) ->
       code < 0 ->
       process_line alloc_all line st = Ret (Abort (mkSt (st_symtab st) (st_unresolved st) (st_pc st) (st_line_num st) (st_written st) (st_total st)
         (st_out st) lx tk ins (st_stdout st ++ out)))).
    { intros lx tk ins out code E Hc. unfold process_line. rewrite E. cbn [bind].
      assert (IS_ERROR code = true) as -> by (unfold IS_ERROR; apply Z.ltb_lt; lia). reflexivity. }
    pose proof HR as [Qt Qr Qp Ql Qn Qo Q8 Qf Qs].
    assert (Hn : 1 <= c_line c /\ nth_error (done ++ line :: map cstring chs) (Z.to_nat (c_line c - 1)) = Some line).
    { rewrite (b_line _ _ HB). pose proof (zlen_pos _ done). split; [lia|].
      replace (Z.to_nat (1 + zlen done - 1)) with (List.length done) by (unfold zlen; lia).
      apply nth_app_mid. }
    revert Qf. inversion Rn as [|? ? toks ? c' ? HL HN HS HX|? ? toks ? c' HL HN HS|? ? toks ? m pos HL HN HS|? ? ? e pos HF|? ? ? HF|? ? ? HF]; subst; intro Qf.
    + pose proof (process_line_sim file done line toks st c HR HB HL HN) as Sim.
      destruct Sim as [c2 st2 E1 E2 R2 B2|c2 st2 E1 E2 R2 B2|m2 p2 st2 out E1 E2 _ Rep _|[(u & Hu) Hl]]; try congruence.
      * rewrite HS in E1. injection E1 as <-. rewrite E2. cbn [bind].
        specialize (IH (done ++ [line]) st2 c' r R2 B2 HX).
        rewrite <- app_assoc in IH. exact IH.
      * right. apply (huge_more _ done). rewrite Hu. cbn [bind]. split; eauto.
    + pose proof (process_line_sim file done line toks st c HR HB HL HN) as Sim.
      destruct Sim as [c2 st2 E1 E2 R2 B2|c2 st2 E1 E2 R2 B2|m2 p2 st2 out E1 E2 _ Rep _|[(u & Hu) Hl]]; try congruence.
      * rewrite HS in E1. injection E1 as <-. rewrite E2. cbn [bind].
        destruct (close_sim file done st2 c' R2 B2); [left; apply settled_more|right; apply huge_more]; auto.
      * right. apply (huge_more _ done). rewrite Hu. cbn [bind]. split; eauto.
    + pose proof (process_line_sim file done line toks st c HR HB HL HN) as Sim.
      destruct Sim as [c2 st2 E1 E2 R2 B2|c2 st2 E1 E2 R2 B2|m2 p2 st2 out E1 E2 Es Rep Eo|[(u & Hu) Hl]]; try congruence.
      * rewrite HS in E1. injection E1 as -> ->. rewrite E2. cbn [bind after_loop].
        left. cbn [settled]. exists out, line. rewrite Es, Eo. tauto.
      * right. apply (huge_more _ done). rewrite Hu. cbn [bind]. split; eauto.
    + destruct (lex_line_fails line file (st_line_num st) (st_lexer st) (st_tk st) (st_instr st) e pos Q8 Qf HF)
        as (lx & tk & ins & out & E & Rep).
      rewrite (Lx _ _ _ _ _ E) by apply error_code_neg. cbn [bind after_loop st_stdout st_out].
      left. cbn [settled]. exists out, line. rewrite Qs, Qo. cbn [app]. rewrite Ql in Rep. tauto.
    + destruct (lex_line_many line file (st_line_num st) (st_lexer st) (st_tk st) (st_instr st) Q8 Qf HF)
        as (lx & tk & ins & E).
      rewrite (Lx _ _ _ _ _ E) by (unfold ERROR_TOO_MANY_TOKENS; lia). cbn [bind after_loop st_stdout st_out].
      left. cbn [settled]. rewrite Qs, Qo. reflexivity.
    + pose proof (lex_line_undef line file (st_line_num st) (st_lexer st) (st_tk st) (st_instr st) Q8 Qf HF) as E.
      left. cbn [settled]. unfold process_line. rewrite E. reflexivity.
Qed.

(** ** The number of lines *)
Lemma fgets_length : forall n s l r, fgets n s = (l, r) -> s = l ++ r /\ (List.length l <= n)%nat.
Proof.
  induction n as [|n IH]; intros s l r E; cbn [fgets] in E.
  - injection E as <- <-. auto.
  - destruct s as [|c s]; [injection E as <- <-; cbn; auto with arith|].
    destruct (Ascii.eqb c ch_nl); [injection E as <- <-; cbn; auto with arith|].
    destruct (fgets n s) as [l' r'] eqn:E2. injection E as <- <-.
    destruct (IH _ _ _ E2) as [-> L]. cbn. split; auto. lia.
Qed.

Lemma fgets_progress : forall n c s l r, fgets (S n) (c :: s) = (l, r) -> l <> [] /\ (List.length r <= List.length s)%nat.
Proof.
  intros n c s l r E. cbn [fgets] in E. destruct (Ascii.eqb c ch_nl).
  - injection E as <- <-. split; [discriminate|lia].
  - destruct (fgets n s) as [l' r'] eqn:E2. injection E as <- <-. split; [discriminate|].
    destruct (fgets_length _ _ _ _ E2) as [-> _]. rewrite app_length. lia.
Qed.

Lemma chunks_fuel_length : forall k s, (List.length (chunks_fuel k s) <= k)%nat.
Proof.
  induction k as [|k IH]; intros s; cbn [chunks_fuel]; [cbn; lia|].
  destruct s as [|c s]; [cbn; lia|].
  destruct (fgets (MAX_BUFFER_SIZE - 1) (c :: s)) as [l r]. cbn [List.length]. specialize (IH r). lia.
Qed.

Lemma chunks_length : forall s, (List.length (chunks s) <= List.length s)%nat.
Proof. intro. apply chunks_fuel_length. Qed.

Definition lines_of (src : text) : list text := map cstring (chunks src).

Theorem gaia_run : forall file src r, Run (lines_of src) core_init r ->
  settled file (lines_of src) (gaia file src) r \/
  ((exists u, gaia file src = Undef u) /\ FEW <= zlen src).
Proof.
  intros file src r H. unfold gaia. rewrite assemble_after.
  destruct (run_sim file (chunks src) [] (init_state file) core_init r) as [S|[U L]]; auto.
  - constructor; cbn; auto; [apply tab_ok_init|apply refs_ok_init].
  - apply Bnd_init.
  - right. split; [exact U|]. cbn [app] in L. unfold zlen in *. rewrite map_length in L.
    pose proof (chunks_length src). lia.
Qed.
