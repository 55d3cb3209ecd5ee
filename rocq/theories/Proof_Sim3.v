(** Proof_Sim3.v -- instructions: process_instruction simulates [instr_step]. *)
From Verif Require Import Base Proof_Base Model_Opcode Model_Error Model_Lexer Model_SymbolTable
  Model_Parser Model_ForwardRef Model_Generator Model_Main Spec_Isa Spec_Text Spec_Asm Spec_Link
  Spec_Report Proof_Opcode Proof_Chars Proof_Error Proof_Lex1 Proof_Lex2 Proof_Prime Proof_Table
  Proof_Refs Proof_Core Proof_Parse Proof_Sim1 Proof_Sim2 Prop_Table.

(** bounds inside a line, after its label was defined *)
Record BndI (lines : list text) (c : core) : Prop := {
  i_line : c_line c = 1 + zlen lines;
  i_pc : 0 <= c_pc c <= 65535 + 3 * zlen lines;
  i_total : 0 <= c_total c <= 3 * zlen lines;
  i_env : zlen (c_env c) <= zlen lines + 1;
  i_refs : zlen (c_refs c) <= zlen lines + 1;
  i_vals : forall n v, lookup (c_env c) n = Some v -> 0 <= v <= 65535 + 3 * zlen lines }.

Lemma code_bytes_len : forall m fl v, 1 <= zlen (code_bytes m fl v) <= 3.
Proof.
  intros. unfold zlen, code_bytes. destruct v; [|cbn; lia]. destruct (absolute_flag fl); cbn; lia.
Qed.

Lemma emit_end : forall file lines line c0 c tab unres lexer tk instr w bs f,
  tab_ok tab (c_env c) -> refs_ok unres (c_refs c) -> List.length (lx_seq lexer) = 8%nat ->
  lx_file lexer = file -> BndI lines c -> Forall (ref_good (lines ++ [line])) (c_refs c) ->
  w = zlen bs -> 1 <= zlen bs <= 3 -> f = write_at (c_file c) (c_pc c) bs ->
  Step file lines line c0
   (line_num <- int_of (c_line c + 1) ;;
    pc <- int_of (c_pc c + w) ;;
    total <- int_of (c_total c + w) ;;
    Ret (Next (mkSt tab unres pc line_num w total f lexer tk instr [])))
   (CNext (c_emit c bs)).
Proof.
  intros file lines line c0 c tab unres lexer tk instr w bs f HT HR HL HF [B1 B2 B3 B4 B5 B6] G -> Hb ->.
  pose proof (zlen_pos _ lines) as ZL.
  unfold int_of. destruct (in_range INT_MIN (c_line c + 1) INT_MAX) eqn:E1; cbn [bind].
  2:{ apply Step_huge. split; [eauto|]. apply in_range_false in E1. unfold FEW, INT_MIN, INT_MAX in *. lia. }
  destruct (in_range INT_MIN (c_pc c + zlen bs) INT_MAX) eqn:E2; cbn [bind].
  2:{ apply Step_huge. split; [eauto|]. apply in_range_false in E2. unfold FEW, INT_MIN, INT_MAX in *. lia. }
  destruct (in_range INT_MIN (c_total c + zlen bs) INT_MAX) eqn:E3; cbn [bind].
  2:{ apply Step_huge. split; [eauto|]. apply in_range_false in E3. unfold FEW, INT_MIN, INT_MAX in *. lia. }
  eapply Step_next; [reflexivity|reflexivity| |].
  - constructor; cbn; auto.
  - assert (zlen (lines ++ [line]) = zlen lines + 1) as Z1 by apply zlen_app.
    constructor; cbn [c_emit c_line c_pc c_total c_env c_refs c_file]; rewrite ?Z1; auto; try lia.
    intros n v H. apply B6 in H. lia.
Qed.

Lemma add_ref_ok : forall u refs r, refs_ok u refs ->
  (exists u', add_forward_ref true u r = Ret (FORWARD_REFERENCE_INSERTION_SUCCESS, u') /\ refs_ok u' (refs ++ [r])) \/
  ((exists x, add_forward_ref true u r = Undef x) /\ MAX_REFS <= zlen refs).
Proof.
  intros u refs r H. destruct (Z_lt_le_dec (un_curr u) MAX_REFS) as [L|L].
  - left. destruct (add_forward_ref_spec true u refs r H L) as (u' & E & K). cbn [orb] in *. eauto.
  - assert (un_curr u = zlen refs) as C by (unfold zlen; apply H).
    destruct (add_forward_ref true u r) as [[code u']|x|] eqn:E.
    + left. destruct (add_cases _ _ _ _ _ _ H E) as [[-> K]|[-> K]]; [eauto|].
      exfalso. unfold add_forward_ref, resize_unresolved in E.
      destruct (un_curr u =? un_size u - 1); cbn [bind negb] in E;
        [destruct (int_of (2 * un_size u)); cbn [bind] in E; try discriminate|];
        match type of E with bind ?m _ = _ => destruct m; cbn [bind] in E; try discriminate end;
        match type of E with bind ?m _ = _ => destruct m; cbn [bind] in E; discriminate end.
    + right. split; [eauto|lia].
    + exfalso. unfold add_forward_ref, resize_unresolved, int_of, put in E.
      destruct (un_curr u =? un_size u - 1); cbn [bind negb] in E;
        repeat match type of E with context [if ?b then _ else _] => destruct b; cbn [bind un_curr un_refs un_size] in E; try discriminate end.
Qed.

Definition kind_status (m : Mnemonic) : Z :=
  if is_branch m then BRANCH_OPERAND else if is_jump m then JUMP_OPERAND else PARSER_SUCCESS.

(** parse_addr_mode on an operand that is known *)
Lemma addr_mode_known : forall lexer line file n toks m nm i tk st, LXok lexer line file n toks ->
  placed line toks -> toks <> [] -> mnemonic_name m = Some nm ->
  get (lx_seq lexer) (Z.of_nat i) = Ret tk ->
  (st =? BRANCH_FORWARD_REFERENCE) || (st =? JUMP_FORWARD_REFERENCE) = false ->
  let instr := mkInstr m (get_addr_bitfield m) 0 0 in
  let flag := flag_known m (ty_eqb (tk_type tk) TOKEN_ACCUMULATOR)
                (0xFF <? tk_value tk) (flags_of (map fst toks)) in
  if flag =? 0 then
    exists out, parse_addr_mode lexer instr (Some (Z.of_nat i)) st =
      Ret (ERROR_ILLEGAL_ADDRESSING_MODE, mkInstr m (get_addr_bitfield m) flag 0, out) /\
      Report file n "illegal addressing mode" line None out
  else parse_addr_mode lexer instr (Some (Z.of_nat i)) st =
      Ret (flag, mkInstr m (get_addr_bitfield m) flag 0, []).
Proof.
  intros lexer line file n toks m nm i tk st K P N Hn Hg Hs instr flag.
  unfold parse_addr_mode. rewrite Hs, Hg. cbn [bind].
  rewrite (apply_masks_ok _ _ _ _ _ _ K). cbn [bind].
  match goal with |- context [finish_mode lexer ?a ?b] => replace a with (mkInstr m (get_addr_bitfield m) flag 0) end.
  2:{ unfold flag, flag_known, flag_start, set_bitflag, instr. cbn [i_mnemonic i_bitfield i_opcode]. reflexivity. }
  cbn [i_bitflag]. unfold finish_mode. cbn [i_bitflag].
  destruct (flag =? 0) eqn:E.
  - destruct (plain_error_ok lexer line file n toks ERROR_ILLEGAL_ADDRESSING_MODE "illegal addressing mode" K P N eq_refl)
      as (out & Eo & Ro).
    rewrite Eo. cbn [bind]. eauto.
  - reflexivity.
Qed.

Lemma known_acc : forall m nm big fl, mnemonic_name m = Some nm ->
  flag_known m true big fl = flag_known m true false fl.
Proof. intros. unfold flag_known, flag_start. reflexivity. Qed.

Lemma set_error_tk_seq : forall l i, lx_seq (lx_set_error_tk l i) = lx_seq l.
Proof. reflexivity. Qed.

Section Instr.
Variables (file : text) (lines : list text) (line : text) (toks : list (tok * nat)).
Variables (st : St) (c : core) (m : Mnemonic) (nm : string).
Hypothesis HREL : Rel file st c.
Hypothesis HLX : LXok (st_lexer st) line file (c_line c) toks.
Hypothesis HP : placed line toks.
Hypothesis HN : toks <> [].
Hypothesis HM : mnemonic_name m = Some nm.
Hypothesis HI : st_instr st = mkInstr m (get_addr_bitfield m) 0 0.
Hypothesis HB : BndI lines c.
Hypothesis HR : zlen (c_refs c) <= zlen lines.
Hypothesis HG : Forall (ref_good lines) (c_refs c).

Let fl := flags_of (map fst toks).
Let op := find_op 1 (tl (map fst toks)).
Hypothesis HSHORT : op = None -> (List.length toks < 8)%nat.
Hypothesis HVN : forall i v, op = Some (i, TNumber v) -> val (st_lexer st) i v.
Hypothesis HVL : forall i l, op = Some (i, TLabel l) -> val (st_lexer st) i 0.

Lemma HG1 : Forall (ref_good (lines ++ [line])) (c_refs c).
Proof. eapply Forall_impl; [|exact HG]. intros. apply ref_good_more. assumption. Qed.

Lemma instr_none : op = None ->
  Step file lines line c (process_instruction alloc_all line st) (instr_step line toks m op fl c).
Proof.
  intro E. unfold process_instruction.
  rewrite (find_operand_ok _ _ _ _ _ HLX HN HSHORT). fold op. rewrite E. cbn [option_map bind parse_operand].
  cbn [IS_ERROR]. change (IS_ERROR PARSER_SUCCESS) with false. cbv iota.
  rewrite HI. unfold parse_addr_mode.
  change ((PARSER_SUCCESS =? BRANCH_FORWARD_REFERENCE) || (PARSER_SUCCESS =? JUMP_FORWARD_REFERENCE)) with false.
  cbv iota. cbn [i_mnemonic i_bitfield].
  match goal with |- context [finish_mode _ ?a ?b] =>
    replace a with (mkInstr m (get_addr_bitfield m) (flag_none m) 0)
      by (unfold flag_none, set_bitflag; destruct m; reflexivity) end.
  cbn [i_bitflag]. unfold finish_mode. cbn [i_bitflag instr_step].
  pose proof (flag_none_range m nm HM) as FR.
  destruct HREL as [A1 A2 A3 A4 A5 A6 A7 A8 A9].
  destruct (Z.eqb_spec (flag_none m) 0) as [Z0|Z0].
  - destruct (plain_error_ok _ _ _ _ _ ERROR_ILLEGAL_ADDRESSING_MODE "illegal addressing mode" HLX HP HN eq_refl)
      as (out & Eo & Ro).
    rewrite Eo. cbn [bind]. change (ERROR_ILLEGAL_ADDRESSING_MODE =? FORWARD_REFERENCE) with false.
    change (IS_ERROR ERROR_ILLEGAL_ADDRESSING_MODE) with true. cbn [bind].
    eapply Step_err; [reflexivity|reflexivity|reflexivity| |]; cbn.
    + rewrite A9. exact Ro.
    + exact A6.
  - cbn [bind]. destruct (Z.eqb_spec (flag_none m) FORWARD_REFERENCE) as [Q|_]; [unfold FORWARD_REFERENCE in Q; lia|].
    unfold IS_ERROR at 1. destruct (Z.ltb_spec (flag_none m) 0); [lia|]. cbn [bind].
    change ((PARSER_SUCCESS =? BRANCH_OPERAND) || (PARSER_SUCCESS =? JUMP_OPERAND)) with false. cbv iota.
    cbn [bind].
    destruct (generate_none (st_out st) (mkInstr m (get_addr_bitfield m) (flag_none m) 0) (st_pc st)) as (i' & Eg).
    rewrite Eg. cbn [bind i_mnemonic i_bitflag]. change (IS_ERROR 1) with false. cbv iota.
    rewrite A3, A4, A5, A6, A9. cbn [app].
    eapply emit_end; eauto using HG1, code_bytes_len.
Qed.

(** the end of an instruction whose operand is known and is not a branch or jump to a label *)
Lemma instr_known_end : forall i t tk lexer1 status v,
  op = Some (i, t) -> LXok lexer1 line file (c_line c) toks ->
  get (lx_seq lexer1) (Z.of_nat i) = Ret tk -> tk_type tk = type_of t ->
  (status = PARSER_SUCCESS) ->
  v = (if ty_eqb (type_of t) TOKEN_ACCUMULATOR then None else Some (tk_value tk)) ->
  parse_operand (st_lexer st) (st_instr st) (Some (Z.of_nat i)) (st_symtab st) =
    Ret (status, lexer1, []) ->
  let flag := flag_known m (ty_eqb (type_of t) TOKEN_ACCUMULATOR) (0xFF <? tk_value tk) fl in
  Step file lines line c (process_instruction alloc_all line st)
    (if flag =? 0 then CErr "illegal addressing mode" None
     else CNext (c_emit c (code_bytes m flag v))).
Proof.
  intros i t tk lexer1 status v E K1 Hg Ht -> Hv Hp flag. unfold process_instruction.
  rewrite (find_operand_ok _ _ _ _ _ HLX HN HSHORT). fold op. rewrite E. cbn [option_map bind fst].
  rewrite Hp. cbn [bind]. change (IS_ERROR PARSER_SUCCESS) with false. cbv iota.
  change (PARSER_SUCCESS =? BRANCH_FORWARD_REFERENCE) with false.
  change (PARSER_SUCCESS =? JUMP_FORWARD_REFERENCE) with false. cbv iota.
  rewrite HI.
  pose proof (addr_mode_known lexer1 line file (c_line c) toks m nm i tk PARSER_SUCCESS K1 HP HN HM Hg eq_refl) as AM.
  cbv zeta in AM. rewrite Ht in AM. fold fl in AM. fold flag in AM.
  pose proof (flag_known_range m nm (ty_eqb (type_of t) TOKEN_ACCUMULATOR) (0xFF <? tk_value tk) fl HM) as FR.
  fold flag in FR.
  destruct HREL as [A1 A2 A3 A4 A5 A6 A7 A8 A9].
  destruct (Z.eqb_spec flag 0) as [Z0|Z0].
  - destruct AM as (out & Eo & Ro). rewrite Eo. cbn [bind].
    change (ERROR_ILLEGAL_ADDRESSING_MODE =? FORWARD_REFERENCE) with false.
    change (IS_ERROR ERROR_ILLEGAL_ADDRESSING_MODE) with true. cbn [bind].
    eapply Step_err; [reflexivity|reflexivity|reflexivity| |]; cbn.
    + rewrite A9. exact Ro.
    + exact A6.
  - rewrite AM. cbn [bind]. destruct (Z.eqb_spec flag FORWARD_REFERENCE) as [Q|_]; [unfold FORWARD_REFERENCE in Q; lia|].
    unfold IS_ERROR at 1. destruct (Z.ltb_spec flag 0); [lia|]. cbn [bind].
    change ((PARSER_SUCCESS =? BRANCH_OPERAND) || (PARSER_SUCCESS =? JUMP_OPERAND)) with false. cbv iota.
    rewrite Hg. cbn [bind].
    assert (exists i', generate_code (st_out st) (mkInstr m (get_addr_bitfield m) flag 0) (Some tk) (st_pc st) =
       (zlen (code_bytes m flag v), write_at (st_out st) (st_pc st) (code_bytes m flag v), i')) as (i' & Eg).
    { subst v. destruct (ty_eqb (type_of t) TOKEN_ACCUMULATOR) eqn:Ac.
      - destruct (generate_acc (st_out st) (mkInstr m (get_addr_bitfield m) flag 0) tk (st_pc st)) as (i' & Eg).
        + rewrite Ht. destruct t as [| | | | | | | | | | | |[]]; try discriminate; reflexivity.
        + exists i'. exact Eg.
      - apply generate_some. rewrite Ht. exact Ac. }
    rewrite Eg. cbn [bind].
    pose proof (code_bytes_len m flag v) as CL.
    unfold IS_ERROR. destruct (Z.ltb_spec (zlen (code_bytes m flag v)) 0); [lia|].
    rewrite A3, A4, A5, A6, A9. cbn [app].
    eapply emit_end; eauto using HG1, (k_len _ _ _ _ _ K1), (k_file _ _ _ _ _ K1).
Qed.

Lemma op_token : forall i t, op = Some (i, t) -> (i < 8)%nat /\ exists p, nth_error toks i = Some (t, p) /\ operand_tok t = true.
Proof.
  intros i t E. unfold op in E. destruct (find_op_nth _ _ _ _ E) as (L & A & B & C).
  assert (nth_error (map fst toks) i = Some t) as A'.
  { destruct (map fst toks) as [|x l]; cbn [tl] in A; [destruct (i - 1)%nat; discriminate|].
    destruct i as [|i]; [lia|]. cbn [nth_error]. replace (S i - 1)%nat with i in A by lia. exact A. }
  rewrite nth_error_map in A'. destruct (nth_error toks i) as [[t' p]|] eqn:Ei; [|discriminate].
  cbn in A'. injection A' as ->. split; [|eauto].
  assert (i < 8)%nat; [|lia].
  destruct (k_tok _ _ _ _ _ HLX i _ Ei) as (tk & Etk & _). rewrite <- (k_len _ _ _ _ _ HLX).
  apply nth_error_Some. congruence.
Qed.

Lemma instr_number : forall i v, op = Some (i, TNumber v) ->
  Step file lines line c (process_instruction alloc_all line st) (instr_step line toks m op fl c).
Proof.
  intros i v E. destruct (op_token _ _ E) as (Li & p & Ep & _).
  destruct (get_tok _ _ _ _ _ _ _ HLX Ep) as (tk & Eg & Ty & Lo & St & Va).
  cbn [fst] in *. rewrite E at 1. cbn [instr_step].
  pose proof (instr_known_end i (TNumber v) tk (st_lexer st) PARSER_SUCCESS (Some v) E HLX Eg Ty eq_refl) as K.
  rewrite (Va v (HVN i v E)) in K. apply K; [reflexivity|].
  unfold parse_operand. rewrite (type_at_ok _ _ _ _ _ _ HLX Li). unfold ty_nth. rewrite nth_error_map, Ep. reflexivity.
Qed.

Lemma instr_acc : forall i, op = Some (i, TA) ->
  Step file lines line c (process_instruction alloc_all line st) (instr_step line toks m op fl c).
Proof.
  intros i E. destruct (op_token _ _ E) as (Li & p & Ep & _).
  destruct (get_tok _ _ _ _ _ _ _ HLX Ep) as (tk & Eg & Ty & Lo & St & Va).
  cbn [fst] in *. rewrite E at 1. cbn [instr_step].
  pose proof (instr_known_end i TA tk (st_lexer st) PARSER_SUCCESS None E HLX Eg Ty eq_refl) as K.
  apply K; [reflexivity|].
  unfold parse_operand. rewrite (type_at_ok _ _ _ _ _ _ HLX Li). unfold ty_nth. rewrite nth_error_map, Ep. reflexivity.
Qed.

Lemma parse_label_known : forall i l v, op = Some (i, TLabel l) -> lookup (c_env c) l = Some v ->
  exists lexer1 tk, parse_operand (st_lexer st) (st_instr st) (Some (Z.of_nat i)) (st_symtab st) =
    Ret (kind_status m, lexer1, []) /\ LXok lexer1 line file (c_line c) toks /\
    get (lx_seq lexer1) (Z.of_nat i) = Ret tk /\ tk_type tk = TOKEN_LABEL /\ tk_value tk = v /\ tk_str tk = l.
Proof.
  intros i l v E Lk. destruct (op_token _ _ E) as (Li & p & Ep & _).
  destruct (get_tok _ _ _ _ _ _ _ HLX Ep) as (tk & Eg & Ty & Lo & Sr & Va).
  destruct (set_value_ok _ _ _ _ _ i v HLX Li) as (lexer1 & Es & K1 & V1 & _).
  destruct (get_tok _ _ _ _ _ _ _ K1 Ep) as (tk1 & Eg1 & Ty1 & Lo1 & Sr1 & Va1).
  exists lexer1, tk1. split.
  - unfold parse_operand. rewrite (type_at_ok _ _ _ _ _ _ HLX Li). unfold ty_nth. rewrite nth_error_map, Ep.
    cbn [option_map fst type_of bind]. change (ty_eqb TOKEN_LABEL TOKEN_LABEL) with true. cbv iota.
    unfold parse_label_operand. rewrite Eg. cbn [bind]. rewrite (Sr l eq_refl).
    rewrite (search_spec _ _ l (q_tab _ _ _ HREL)), Lk. cbn [bind].
    pose proof (i_vals _ _ HB l v Lk) as Vb.
    destruct (Z.eqb_spec v ERROR_SYMBOL_NOT_FOUND) as [Q|_]; [unfold ERROR_SYMBOL_NOT_FOUND in Q; lia|].
    cbn [negb]. rewrite Es. cbn [bind]. rewrite HI. cbn [i_mnemonic]. unfold kind_status.
    destruct (is_branch m), (is_jump m); reflexivity.
  - split; [exact K1|]. split; [exact Eg1|]. split; [exact Ty1|]. split; [apply Va1, V1|apply Sr1; reflexivity].
Qed.

(** branches and jumps to a known label *)
Lemma instr_label_flow : forall i l v, op = Some (i, TLabel l) -> lookup (c_env c) l = Some v ->
  is_branch m || is_jump m = true ->
  Step file lines line c (process_instruction alloc_all line st) (instr_step line toks m op fl c).
Proof.
  intros i l v E Lk Kind. destruct (op_token _ _ E) as (Li & p & Ep & _).
  destruct (parse_label_known i l v E Lk) as (lexer1 & tk & Ep1 & K1 & Hg & Ty & Va & Sr).
  rewrite E at 1. cbn [instr_step]. rewrite Lk.
  unfold process_instruction.
  rewrite (find_operand_ok _ _ _ _ _ HLX HN HSHORT). fold op. rewrite E. cbn [option_map bind fst].
  rewrite Ep1. cbn [bind].
  assert (KS : kind_status m = if is_branch m then BRANCH_OPERAND else JUMP_OPERAND).
  { unfold kind_status. destruct (is_branch m), (is_jump m); try reflexivity; discriminate. }
  rewrite KS.
  assert (IS_ERROR (if is_branch m then BRANCH_OPERAND else JUMP_OPERAND) = false) as -> by (destruct (is_branch m); reflexivity).
  assert (((if is_branch m then BRANCH_OPERAND else JUMP_OPERAND) =? BRANCH_FORWARD_REFERENCE) = false) as Q1 by (destruct (is_branch m); reflexivity).
  assert (((if is_branch m then BRANCH_OPERAND else JUMP_OPERAND) =? JUMP_FORWARD_REFERENCE) = false) as Q2 by (destruct (is_branch m); reflexivity).
  rewrite Q1, Q2. cbv iota. rewrite HI.
  assert ((((if is_branch m then BRANCH_OPERAND else JUMP_OPERAND) =? BRANCH_FORWARD_REFERENCE)
         || ((if is_branch m then BRANCH_OPERAND else JUMP_OPERAND) =? JUMP_FORWARD_REFERENCE)) = false) as Q3 by (rewrite Q1, Q2; reflexivity).
  pose proof (addr_mode_known lexer1 line file (c_line c) toks m nm i tk _ K1 HP HN HM Hg Q3) as AM.
  cbv zeta in AM. rewrite Ty, Va in AM. change (ty_eqb TOKEN_LABEL TOKEN_ACCUMULATOR) with false in AM. fold fl in AM.
  pose proof (flag_known_range m nm false (0xFF <? v) fl HM) as FR.
  set (flag := flag_known m false (0xFF <? v) fl) in *.
  destruct HREL as [A1 A2 A3 A4 A5 A6 A7 A8 A9].
  destruct (Z.eqb_spec flag 0) as [Z0|Z0].
  - destruct AM as (out & Eo & Ro). rewrite Eo. cbn [bind].
    change (ERROR_ILLEGAL_ADDRESSING_MODE =? FORWARD_REFERENCE) with false.
    change (IS_ERROR ERROR_ILLEGAL_ADDRESSING_MODE) with true. cbn [bind].
    eapply Step_err; [reflexivity|reflexivity|reflexivity| |]; cbn.
    + rewrite A9. exact Ro.
    + exact A6.
  - rewrite AM. cbn [bind]. destruct (Z.eqb_spec flag FORWARD_REFERENCE) as [Q|_]; [unfold FORWARD_REFERENCE in Q; lia|].
    unfold IS_ERROR at 1. destruct (Z.ltb_spec flag 0); [lia|]. cbn [bind].
    unfold resolve_label_ref. rewrite Hg. cbn [bind]. rewrite Sr.
    rewrite (search_spec _ _ l A1), Lk. cbn [bind].
    destruct (is_branch m) eqn:Br.
    + change ((BRANCH_OPERAND =? BRANCH_OPERAND) || (BRANCH_OPERAND =? JUMP_OPERAND)) with true. cbv iota.
      change (BRANCH_OPERAND =? BRANCH_OPERAND) with true. cbv iota.
      rewrite A3. destruct (branch_offset_ok (c_pc c) v) as [Eb|[(u & Eb) Ns]].
      2:{ rewrite Eb. cbn [bind]. apply Step_huge. split; [eauto|].
          pose proof (i_vals _ _ HB l v Lk). pose proof (i_pc _ _ HB). unfold sane, FEW in *. lia. }
      rewrite Eb. destruct (branch_offset (c_pc c) v) as [d|] eqn:Ed; cbn [bind].
      * pose proof (branch_offset_range _ _ _ Ed) as Dr.
        destruct (Z.eqb_spec d ERROR_TOO_BIG_OFFSET) as [Q|_]; [unfold ERROR_TOO_BIG_OFFSET in Q; lia|].
        destruct (set_value_ok _ _ _ _ _ i d K1 Li) as (lexer2 & Es & K2 & V2 & _).
        destruct (get_tok _ _ _ _ _ _ _ K2 Ep) as (tk2 & Eg2 & Ty2 & Lo2 & Sr2 & Va2).
        rewrite Es. cbn [bind]. rewrite Eg2. cbn [bind].
        destruct (generate_some (st_out st) (mkInstr m (get_addr_bitfield m) flag 0) tk2 (c_pc c)) as (i' & Egen).
        { rewrite Ty2. reflexivity. }
        rewrite Egen. cbn [bind i_mnemonic i_bitflag]. rewrite (Va2 d V2).
        pose proof (code_bytes_len m flag (Some d)) as CL.
        unfold IS_ERROR. destruct (Z.ltb_spec (zlen (code_bytes m flag (Some d))) 0); [lia|].
        rewrite A4, A5, A6, A9. cbn [app].
        eapply emit_end; eauto using HG1, (k_len _ _ _ _ _ K2), (k_file _ _ _ _ _ K2).
      * change (ERROR_TOO_BIG_OFFSET =? ERROR_TOO_BIG_OFFSET) with true. cbv iota.
        destruct (get_tok _ _ _ _ _ _ _ K1 Ep) as (tk' & Eg' & _ & Lo' & _). rewrite Hg in Eg'. injection Eg' as <-.
        cbn [snd] in Lo'. rewrite Lo', (k_line _ _ _ _ _ K1), (k_file _ _ _ _ _ K1), (k_num _ _ _ _ _ K1).
        destruct (print_error_report line ERROR_TOO_BIG_OFFSET (Some p) file (c_line c) "branch offset too far away")
          as (out & Eo & Ro); auto.
        { eapply placed_visible; eauto. }
        { pose proof (placed_pos line toks i HP) as Q. unfold tok_pos in Q. rewrite Ep in Q. exact Q. }
        rewrite Eo. cbn [bind]. change (IS_ERROR ERROR_TOO_BIG_OFFSET) with true. cbv iota.
        eapply Step_err; [reflexivity|reflexivity|reflexivity| |]; cbn.
        -- rewrite A9. unfold tok_pos. rewrite Ep. exact Ro.
        -- exact A6.
    + change ((JUMP_OPERAND =? BRANCH_OPERAND) || (JUMP_OPERAND =? JUMP_OPERAND)) with true. cbv iota.
      change (JUMP_OPERAND =? BRANCH_OPERAND) with false. change (JUMP_OPERAND =? JUMP_OPERAND) with true. cbv iota.
      destruct (set_value_ok _ _ _ _ _ i v K1 Li) as (lexer2 & Es & K2 & V2 & _).
      destruct (get_tok _ _ _ _ _ _ _ K2 Ep) as (tk2 & Eg2 & Ty2 & Lo2 & Sr2 & Va2).
      rewrite Es. cbn [bind]. rewrite Eg2. cbn [bind].
      destruct (generate_some (st_out st) (mkInstr m (get_addr_bitfield m) flag 0) tk2 (st_pc st)) as (i' & Egen).
      { rewrite Ty2. reflexivity. }
      rewrite Egen. cbn [bind i_mnemonic i_bitflag]. rewrite (Va2 v V2).
      pose proof (code_bytes_len m flag (Some v)) as CL.
      unfold IS_ERROR. destruct (Z.ltb_spec (zlen (code_bytes m flag (Some v))) 0); [lia|].
      rewrite A3, A4, A5, A6, A9. cbn [app].
      eapply emit_end; eauto using HG1, (k_len _ _ _ _ _ K2), (k_file _ _ _ _ _ K2).
Qed.

(** other instructions with a known label *)
Lemma instr_label_plain : forall i l v, op = Some (i, TLabel l) -> lookup (c_env c) l = Some v ->
  is_branch m || is_jump m = false ->
  Step file lines line c (process_instruction alloc_all line st) (instr_step line toks m op fl c).
Proof.
  intros i l v E Lk Kind.
  destruct (parse_label_known i l v E Lk) as (lexer1 & tk & Ep1 & K1 & Hg & Ty & Va & Sr).
  rewrite E at 1. cbn [instr_step]. rewrite Lk.
  apply orb_false_iff in Kind. destruct Kind as [Br Ju]. rewrite Br.
  assert (kind_status m = PARSER_SUCCESS) as KS by (unfold kind_status; rewrite Br, Ju; reflexivity).
  rewrite KS in Ep1.
  pose proof (instr_known_end i (TLabel l) tk lexer1 PARSER_SUCCESS (Some v) E K1 Hg Ty eq_refl) as K.
  rewrite Va in K. apply K; [reflexivity|exact Ep1].
Qed.

(** an unknown label *)
Lemma instr_label_unknown : forall i l, op = Some (i, TLabel l) -> lookup (c_env c) l = None ->
  Step file lines line c (process_instruction alloc_all line st) (instr_step line toks m op fl c).
Proof.
  intros i l E Lk. destruct (op_token _ _ E) as (Li & p & Ep & _).
  destruct (get_tok _ _ _ _ _ _ _ HLX Ep) as (tk & Eg & Ty & Lo & Sr & Va). cbn [fst snd] in *.
  assert (TP : tok_pos toks i = Some p) by (unfold tok_pos; rewrite Ep; reflexivity).
  rewrite E at 1. cbn [instr_step]. rewrite Lk.
  unfold process_instruction.
  rewrite (find_operand_ok _ _ _ _ _ HLX HN HSHORT). fold op. rewrite E. cbn [option_map bind fst].
  assert (PO : parse_operand (st_lexer st) (st_instr st) (Some (Z.of_nat i)) (st_symtab st) =
     if is_branch m then Ret (BRANCH_FORWARD_REFERENCE, st_lexer st, [])
     else if is_jump m then Ret (JUMP_FORWARD_REFERENCE, st_lexer st, [])
     else syntax_error (st_lexer st) ERROR_ILLEGAL_FORWARD_REFERENCE (Z.of_nat i)).
  { unfold parse_operand. rewrite (type_at_ok _ _ _ _ _ _ HLX Li). unfold ty_nth. rewrite nth_error_map, Ep.
    cbn [option_map fst type_of bind]. change (ty_eqb TOKEN_LABEL TOKEN_LABEL) with true. cbv iota.
    unfold parse_label_operand. rewrite Eg. cbn [bind]. rewrite (Sr l eq_refl).
    rewrite (search_spec _ _ l (q_tab _ _ _ HREL)), Lk. cbn [bind].
    change (ERROR_SYMBOL_NOT_FOUND =? ERROR_SYMBOL_NOT_FOUND) with true. cbn [negb]. rewrite HI. reflexivity. }
  pose proof HREL as [A1 A2 A3 A4 A5 A6 A7 A8 A9].
  destruct (is_branch m || is_jump m) eqn:Kind.
  2:{ apply orb_false_iff in Kind. destruct Kind as [KB KJ]. rewrite KB, KJ in PO. rewrite PO.
      destruct (syntax_error_ok _ _ _ _ _ ERROR_ILLEGAL_FORWARD_REFERENCE "illegal forward reference" i HLX HP HN Li eq_refl)
        as (out & Eo & Ro).
      rewrite Eo. cbn [bind]. change (IS_ERROR ERROR_ILLEGAL_FORWARD_REFERENCE) with true. cbv iota.
      eapply Step_err; [reflexivity|reflexivity|reflexivity| |]; cbn.
      - rewrite A9. exact Ro.
      - exact A6. }
  set (status := if is_branch m then BRANCH_FORWARD_REFERENCE else JUMP_FORWARD_REFERENCE).
  rewrite PO. clear PO.
  match goal with |- context [bind ?x _] => assert (x = Ret (status, st_lexer st, [])) as -> end.
  { unfold status. destruct (is_branch m); [reflexivity|]. cbn [orb] in Kind. rewrite Kind. reflexivity. }
  cbn [bind]. assert (IS_ERROR status = false) as -> by (unfold status; destruct (is_branch m); reflexivity).
  rewrite HI. unfold parse_addr_mode.
  assert ((status =? BRANCH_FORWARD_REFERENCE) || (status =? JUMP_FORWARD_REFERENCE) = true) as ->
    by (unfold status; destruct (is_branch m); reflexivity).
  unfold parse_forward_ref_addr_mode. rewrite (apply_masks_ok _ _ _ _ _ _ HLX). fold fl. cbn [bind].
  match goal with |- context [finish_mode _ ?a _] => replace a with (mkInstr m (get_addr_bitfield m) (flag_forward m fl) 0) end.
  2:{ unfold flag_forward, set_bitflag. cbn [i_mnemonic i_bitfield i_opcode]. destruct (is_branch m) eqn:Br; [reflexivity|].
      destruct m; try discriminate; reflexivity. }
  set (flag := flag_forward m fl) in *. unfold finish_mode. cbn [i_bitflag].
  destruct (Z.eqb_spec flag 0) as [Z0|Z0].
  - destruct (plain_error_ok _ _ _ _ _ ERROR_ILLEGAL_ADDRESSING_MODE "illegal addressing mode" HLX HP HN eq_refl)
      as (out & Eo & Ro).
    rewrite Eo. cbn [bind]. change (ERROR_ILLEGAL_ADDRESSING_MODE =? FORWARD_REFERENCE) with false.
    change (IS_ERROR ERROR_ILLEGAL_ADDRESSING_MODE) with true. cbn [bind].
    eapply Step_err; [reflexivity|reflexivity|reflexivity| |]; cbn.
    + rewrite A9. exact Ro.
    + exact A6.
  - cbn [bind]. change (FORWARD_REFERENCE =? FORWARD_REFERENCE) with true. cbv iota.
    rewrite Eg. cbn [bind]. unfold create_forward_ref. cbn [ok_ref alloc_all negb].
    assert (Sol : solid line p) by (eapply HP, nth_error_In, Ep).
    destruct (strip_source_ok line p Sol) as (s & trail & Es & El & Ss & Ft).
    rewrite Es. cbn [bind]. rewrite Lo. cbn [i_mnemonic i_bitfield i_bitflag i_opcode bind]. rewrite (Sr l eq_refl).
    rewrite A3, A4. cbn [ok_grow alloc_all].
    set (ref := mkRef l s (mkInstr m (get_addr_bitfield m) flag 0) (c_pc c) (c_line c) status p).
    assert (ref = mkRef l (stripped line) (mkInstr m (get_addr_bitfield m) flag 0) (c_pc c) (c_line c)
                 status
                 match tok_pos toks i with Some p => p | None => 0%nat end) as <-.
    { unfold ref, stripped. rewrite Es, TP. reflexivity. }
    destruct (add_ref_ok _ _ ref A2) as [(u' & Ea & Ru)|[(x & Ea) Big]].
    2:{ rewrite Ea. cbn [bind]. apply Step_huge. split; [eauto|]. unfold MAX_REFS, FEW in *. lia. }
    rewrite Ea. cbn [bind]. change (IS_ERROR FORWARD_REFERENCE_INSERTION_SUCCESS) with false. cbv iota.
    cbn [bind].
    assert ((status =? BRANCH_OPERAND) || (status =? JUMP_OPERAND) = false) as ->
      by (unfold status; destruct (is_branch m); reflexivity).
    cbn [bind].
    match goal with |- context [generate_code ?f _ _ _] =>
      replace f with (let f1 := fputc 0 (fputc 0 (c_file c)) in if is_branch m then f1 else fputc 0 f1) end.
    2:{ cbv zeta. rewrite A6. unfold status. destruct (is_branch m); reflexivity. }
    set (f2 := let f1 := fputc 0 (fputc 0 (c_file c)) in if is_branch m then f1 else fputc 0 f1).
    destruct (generate_some f2 (mkInstr m (get_addr_bitfield m) flag 0) tk (c_pc c)) as (i' & Egen).
    { rewrite Ty. reflexivity. }
    rewrite Egen. cbn [bind i_mnemonic i_bitflag]. rewrite (Va 0 (HVL i l E)).
    pose proof (code_bytes_len m flag (Some 0)) as CL.
    unfold IS_ERROR. destruct (Z.ltb_spec (zlen (code_bytes m flag (Some 0))) 0); [lia|].
    rewrite A5, A9. cbn [app].
    set (c' := mkCore (c_env c) (c_refs c ++ [ref]) (c_pc c) (c_line c) (c_total c) f2).
    assert (BndI lines c') as B'.
    { destruct HB as [B1 B2 B3 B4 B5 B6]. constructor; cbn [c' c_line c_pc c_total c_env c_refs]; auto. rewrite zlen_app. change (zlen [ref]) with 1. lia. }
    change (c_line c) with (c_line c'). change (c_pc c) with (c_pc c'). change (c_total c) with (c_total c').
    eapply emit_end; eauto.
    cbn. apply Forall_app. split; [exact HG1|]. constructor; [|constructor].
    destruct HB as [B1 B2 B3 B4 B5 B6]. constructor; cbn [ref fr_line_num fr_operand_location fr_source_line fr_instr fr_operand_status fr_pc i_mnemonic i_bitflag].
    + exists line. pose proof (zlen_pos _ lines). split; [lia|]. split.
      * replace (Z.to_nat (c_line c - 1)) with (List.length lines) by (unfold zlen in *; lia).
        rewrite nth_error_app2 by lia. rewrite Nat.sub_diag. reflexivity.
      * split; [exact Sol|]. unfold stripped. rewrite Es. reflexivity.
    + exact Kind.
    + reflexivity.
    + exact Z0.
    + rewrite zlen_app. change (zlen [line]) with 1. lia.
Qed.

Theorem instr_sim :
  Step file lines line c (process_instruction alloc_all line st) (instr_step line toks m op fl c).
Proof.
  assert (Hop : op = None \/ exists i t, op = Some (i, t)).
  { clear. destruct op as [[i t]|]; eauto. }
  destruct Hop as [E|(i & t & E)].
  - apply instr_none, E.
  - destruct (op_token _ _ E) as (Li & p & Ep & Ho).
    destruct t; try discriminate.
    + destruct (lookup (c_env c) name) as [v|] eqn:Lk.
      * destruct (is_branch m || is_jump m) eqn:Kind.
        -- eapply instr_label_flow; eauto.
        -- eapply instr_label_plain; eauto.
      * eapply instr_label_unknown; eauto.
    + eapply instr_number; eauto.
    + eapply instr_acc; eauto.
Qed.
End Instr.
