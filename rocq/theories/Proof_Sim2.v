(** Proof_Sim2.v -- one turn of the main loop simulates one step of the machine of
    Proof_Core. *)
From Verif Require Import Base Proof_Base Model_Opcode Model_Error Model_Lexer Model_SymbolTable
  Model_Parser Model_ForwardRef Model_Generator Model_Main Spec_Isa Spec_Text Spec_Asm Spec_Link
  Spec_Report Proof_Opcode Proof_Chars Proof_Error Proof_Lex1 Proof_Lex2 Proof_Prime Proof_Table
  Proof_Refs Proof_Core Proof_Parse Proof_Sim1 Prop_Table.

(** ** Shapes of the lines the parser accepts *)
Definition named (ts : list tok) : Prop := forall n, In (TMnemonic n) ts -> is_name n.

Lemma Lexes_named : forall lit first off s toks, Lexes lit first off s toks -> named (map fst toks).
Proof.
  intros lit first off s toks H. induction H; intros n Hin; cbn [map] in Hin.
  - destruct Hin.
  - apply IHLexes, Hin.
  - destruct Hin as [E|Hin]; [|apply IHLexes, Hin]. exfalso. cbn in E. subst t.
    destruct H as [H|[H|[H|[H|[H|H]]]]]; discriminate.
  - destruct Hin as [E|Hin]; [|apply IHLexes, Hin]. cbn in E. subst t. inversion H; subst.
    match goal with H : ident_means _ _ |- _ => inversion H; auto end.
  - destruct Hin as [E|Hin]; [discriminate|apply IHLexes, Hin].
Qed.

Lemma Lexes_numbers : forall lit first off s toks, Lexes lit first off s toks ->
  (forall n v, lit n v -> 0 <= n -> 0 <= v <= 65535) ->
  forall v, In (TNumber v) (map fst toks) -> 0 <= v <= 65535.
Proof.
  intros lit first off s toks H HL. induction H; intros v Hin; cbn [map] in Hin.
  - destruct Hin.
  - apply IHLexes, Hin.
  - destruct Hin as [E|Hin]; [|apply IHLexes, Hin]. exfalso. cbn in E. subst t.
    destruct H as [H|[H|[H|[H|[H|H]]]]]; discriminate.
  - destruct Hin as [E|Hin]; [|apply IHLexes, Hin]. cbn in E. subst t. inversion H; subst.
    + match goal with H : ident_means _ _ |- _ => inversion H end.
    + match goal with H : numeral _ _ |- _ => destruct H as (b & ds & _ & Hn) end.
      eapply HL; eauto. clear - Hn. induction Hn.
      * inversion H; subst; lia.
      * assert (0 <= d) by (inversion H; subst; lia).
        assert (0 <= radix b ^ Z.of_nat (List.length ds)) by (apply Z.pow_nonneg; destruct b; cbn; lia). nia.
  - destruct Hin as [E|Hin]; [discriminate|apply IHLexes, Hin].
Qed.

Lemma wr_numbers : forall n v, wr n v -> 0 <= n -> 0 <= v <= 65535.
Proof.
  intros n v [-> H] _. split; [|lia]. apply Z.mod_pos_bound. lia.
Qed.

Lemma comp_operand_inl : forall i r ok x, comp_operand i r ok = inl x ->
  x = ok /\ (find_op i r = None -> r = []).
Proof.
  intros i r ok x H.
  destruct r as [|[] r]; cbn in H; try discriminate;
    try (injection H as <-; split; [reflexivity|]; cbn; intro; congruence).
  all: try (split; [|cbn; intro; congruence]).
  all: repeat (destruct r as [|[] r]; cbn in H; try discriminate;
    try (injection H as <-; first [reflexivity|split; [reflexivity|cbn; intro; congruence]])).
Qed.

Lemma compile_instr : forall ts lab m op fl, compile ts = inl (CInstr lab m op fl) ->
  m = last_mnemonic NULL_MNEMONIC ts /\ op = find_op 1 (tl ts) /\ fl = flags_of ts /\
  (op = None -> (List.length ts <= 2)%nat) /\
  ((lab = None /\ exists nm r, ts = TMnemonic nm :: r) \/
   (exists n nm r, lab = Some n /\ ts = TLabel n :: TMnemonic nm :: r)).
Proof.
  intros ts lab m op fl H. unfold compile in H.
  destruct ts as [|t0 ts]; [discriminate|].
  destruct t0; try discriminate.
  - destruct ts as [|t1 ts]; [discriminate|].
    destruct t1; try discriminate.
    + apply comp_operand_inl in H. destruct H as [H F]. unfold cinstr in H. injection H as -> -> -> ->.
      repeat split; auto.
      * cbn [tl find_op operand_tok]. intro E. apply F in E. subst. cbn. lia.
      * right. eauto.
    + destruct ts as [|[] [|]]; discriminate.
    + destruct d; try discriminate. destruct ts as [|[] [|]]; discriminate.
  - apply comp_operand_inl in H. destruct H as [H F]. unfold cinstr in H. injection H as -> -> -> ->.
    repeat split; auto.
    + cbn [tl]. intro E. apply F in E. subst. cbn. lia.
    + left. eauto.
  - destruct ts as [|[] [|[] [|]]]; discriminate.
  - destruct d; try discriminate.
    + destruct ts as [|[] [|[] [|]]]; discriminate.
    + destruct ts as [|[] [|]]; discriminate.
    + destruct ts; discriminate.
Qed.

Definition no_mnemonic (ts : list tok) : Prop := forall n, ~ In (TMnemonic n) ts.

Lemma compile_other : forall ts c, compile ts = inl c ->
  match c with
  | CEmpty => ts = []
  | CLabel n => ts = [TLabel n]
  | CConst n i v => i = 0%nat /\ ts = [TLabel n; TEqual; TNumber v] \/
                    i = 0%nat /\ ts = [TLabel n; TDirective DEqu; TNumber v] \/
                    i = 1%nat /\ ts = [TDirective DDefine; TLabel n; TNumber v]
  | COrg v => ts = [TDirective DOrg; TNumber v] \/ ts = [TStar; TEqual; TNumber v]
  | CEnd => ts = [TDirective DEnd]
  | CInstr _ _ _ _ => True
  end.
Proof.
  intros ts c H. unfold compile in H.
  destruct ts as [|t0 ts]; [injection H as <-; reflexivity|].
  destruct t0; try discriminate.
  - destruct ts as [|t1 ts]; [injection H as <-; reflexivity|].
    destruct t1; try discriminate.
    + apply comp_operand_inl in H. destruct H as [-> _]. exact I.
    + destruct ts as [|[] [|]]; try discriminate. injection H as <-. auto.
    + destruct d; try discriminate. destruct ts as [|[] [|]]; try discriminate. injection H as <-. auto.
  - apply comp_operand_inl in H. destruct H as [-> _]. exact I.
  - destruct ts as [|[] [|[] [|]]]; try discriminate. injection H as <-. auto.
  - destruct d; try discriminate.
    + destruct ts as [|[] [|[] [|]]]; try discriminate. injection H as <-. auto.
    + destruct ts as [|[] [|]]; try discriminate. injection H as <-. auto.
    + destruct ts; try discriminate. injection H as <-. auto.
Qed.

Lemma comp_operand_inr : forall i r ok b k, comp_operand i r ok = inr (b, k) -> (k <= i + 5)%nat.
Proof.
  intros i r ok b k H.
  destruct r as [|[] r]; cbn in H; try discriminate;
    try (injection H as <- <-; lia).
  all: repeat (destruct r as [|[] r]; cbn in H; try discriminate; try (injection H as <- <-; lia)).
Qed.

Lemma compile_inr : forall ts b k, compile ts = inr (b, k) -> (k < 8)%nat /\ ts <> [].
Proof.
  intros ts b k H. split; [|intros ->; discriminate]. unfold compile in H.
  destruct ts as [|t0 ts]; [discriminate|].
  destruct t0; try (injection H as <- <-; lia).
  - destruct ts as [|t1 ts]; [discriminate|].
    destruct t1; try (injection H as <- <-; lia).
    + apply comp_operand_inr in H. lia.
    + destruct ts as [|[] [|]]; try discriminate; injection H as <- <-; lia.
    + destruct d; try (injection H as <- <-; lia).
      destruct ts as [|[] [|]]; try discriminate; injection H as <- <-; lia.
  - apply comp_operand_inr in H. lia.
  - destruct ts as [|[] [|[] [|]]]; try discriminate; injection H as <- <-; lia.
  - destruct d; try (injection H as <- <-; lia).
    + destruct ts as [|[] [|[] [|]]]; try discriminate; injection H as <- <-; lia.
    + destruct ts as [|[] [|]]; try discriminate; injection H as <- <-; lia.
    + destruct ts; try discriminate; injection H as <- <-; lia.
Qed.

(** ** The instruction struct *)
Lemma instr_of_mnemonic : forall toks i,
  i_mnemonic (instr_run i toks) = last_mnemonic (i_mnemonic i) (map fst toks) /\
  i_bitflag (instr_run i toks) = i_bitflag i /\ i_opcode (instr_run i toks) = i_opcode i /\
  (i_bitfield i = get_addr_bitfield (i_mnemonic i) \/ (exists n, In (TMnemonic n) (map fst toks)) ->
   i_bitfield (instr_run i toks) = get_addr_bitfield (i_mnemonic (instr_run i toks))).
Proof.
  induction toks as [|p toks IH]; intros i; cbn [instr_run fold_left map last_mnemonic].
  - repeat split; auto. intros [H|(n & [])]; exact H.
  - destruct (IH (instr_next i (fst p))) as (A & B & C & D).
    unfold instr_run in *. rewrite A, B, C in *.
    destruct (fst p) eqn:E; cbn [instr_next i_mnemonic i_bitflag i_opcode last_mnemonic] in *;
      (split; [reflexivity|]; split; [reflexivity|]; split; [reflexivity|]);
      intros [H|(k & [H|H])]; try discriminate; apply D; eauto; left; cbn; reflexivity.
Qed.

Lemma last_mnemonic_real : forall ts m, named ts ->
  (exists n, mnemonic_name m = Some n) \/ (exists n, In (TMnemonic n) ts) ->
  exists n, mnemonic_name (last_mnemonic m ts) = Some n.
Proof.
  induction ts as [|t ts IH]; intros m N H.
  - destruct H as [H|(n & [])]. exact H.
  - assert (named ts) as N' by (intros n Hn; apply N; right; exact Hn).
    destruct t; cbn [last_mnemonic]; (apply IH; [exact N'|]);
      try (destruct H as [H|(n & [H|H])]; try discriminate; solve [eauto]).
    left. exists name.
    assert (is_name name) as Nn by (apply N; left; reflexivity). apply is_name_mnemonic in Nn.
    destruct Nn as (m' & Hm). rewrite (str_to_mnemonic_name m' name Hm). exact Hm.
Qed.

Lemma last_mnemonic_none : forall ts m, no_mnemonic ts -> last_mnemonic m ts = m.
Proof.
  induction ts as [|t ts IH]; intros m N; [reflexivity|].
  assert (no_mnemonic ts) as N' by (intros n Hn; apply (N n); right; exact Hn).
  destruct t; cbn; try (apply IH; exact N'). exfalso. apply (N name). left; reflexivity.
Qed.

Lemma instr_of_real : forall toks, named (map fst toks) -> (exists n, In (TMnemonic n) (map fst toks)) ->
  instr_of toks = mkInstr (last_mnemonic NULL_MNEMONIC (map fst toks))
                          (get_addr_bitfield (last_mnemonic NULL_MNEMONIC (map fst toks))) 0 0.
Proof.
  intros toks N H. destruct (instr_of_mnemonic toks init_instruction) as (A & B & C & D).
  unfold instr_of. specialize (D (or_intror H)). rewrite A in D. cbn in A, B, C, D.
  destruct (instr_run init_instruction toks). cbn in *. congruence.
Qed.

(** ** Values of tokens *)
Lemma run_toks_value : forall toks tk i p t, nth_error toks i = Some p ->
  nth_error (run_toks tk toks) i = Some t ->
  (forall v, fst p = TNumber v -> tk_value t = v) /\
  ((forall k u, (k <= i)%nat -> nth_error (map fst toks) k = Some u -> forall v, u <> TNumber v) ->
   tk_value t = tk_value tk).
Proof.
  induction toks as [|q toks IH]; intros tk [|i] p t H E; cbn in *; try discriminate.
  - injection H as ->. injection E as <-. split.
    + intros v Ev. unfold tk_next. rewrite Ev. reflexivity.
    + intro N. unfold tk_next. specialize (N 0%nat (fst p) ltac:(lia) eq_refl).
      cbn. destruct (fst p); try reflexivity. exfalso. eapply N; reflexivity.
  - destruct (IH _ _ _ _ H E) as [A B]. split; [exact A|]. intro N. rewrite B.
    + specialize (N 0%nat (fst q) ltac:(lia) eq_refl). unfold tk_next. cbn.
      destruct (fst q); try reflexivity. exfalso. eapply N; reflexivity.
    + intros k u Hk Hu. apply (N (S k) u); [lia|exact Hu].
Qed.

Lemma seq_of_run : forall toks i, (i < List.length toks)%nat ->
  nth_error (seq_of toks) i = nth_error (run_toks init_token toks) i.
Proof. intros toks i H. unfold seq_of, pad. rewrite nth_error_app1; [reflexivity|]. rewrite run_toks_length. exact H. Qed.

Lemma val_lexed : forall line file n toks i p, nth_error toks i = Some p ->
  (forall v, fst p = TNumber v -> val (lexed line file n toks) i v) /\
  ((forall k u, (k <= i)%nat -> nth_error (map fst toks) k = Some u -> forall v, u <> TNumber v) ->
   val (lexed line file n toks) i 0).
Proof.
  intros line file n toks i p H. unfold val, lexed, lx_seq.
  assert (i < List.length toks)%nat as Li by (apply nth_error_Some; congruence).
  rewrite seq_of_run by exact Li.
  destruct (nth_error (run_toks init_token toks) i) as [t|] eqn:E.
  2:{ apply nth_error_None in E. rewrite run_toks_length in E. lia. }
  destruct (run_toks_value toks init_token i p t H E) as [A B]. split.
  - intros v Hv. exists t. auto.
  - intro N. exists t. split; [reflexivity|]. apply (B N).
Qed.

(** ** Enumerations over mnemonics *)
Definition all_bools := [true; false].
Definition all_flags : list flags :=
  flat_map (fun a => flat_map (fun b => flat_map (fun c => flat_map (fun d =>
    map (fun e => mkFlags a b c d e) all_bools) all_bools) all_bools) all_bools) all_bools.

Lemma all_flags_in : forall f, In f all_flags.
Proof. intros [[] [] [] [] []]; vm_compute; tauto. Qed.

Lemma all_bools_in : forall b, In b all_bools.
Proof. intros []; cbn; tauto. Qed.

Lemma enum_known : forall (P : Mnemonic -> bool -> bool -> flags -> bool),
  forallb (fun m => forallb (fun a => forallb (fun b => forallb (fun f => P m a b f) all_flags)
    all_bools) all_bools) all_mnemonics = true ->
  forall m n a b f, mnemonic_name m = Some n -> P m a b f = true.
Proof.
  intros P H m n a b f Hn. rewrite forallb_forall in H. specialize (H m (mnemonic_in m n Hn)).
  rewrite forallb_forall in H. specialize (H a (all_bools_in a)).
  rewrite forallb_forall in H. specialize (H b (all_bools_in b)).
  rewrite forallb_forall in H. exact (H f (all_flags_in f)).
Qed.

Lemma flag_known_range : forall m n a b f, mnemonic_name m = Some n -> 0 <= flag_known m a b f < 8192.
Proof.
  intros m n a b f Hn.
  pose proof (enum_known (fun m a b f => in_range 0 (flag_known m a b f) 8191)
                ltac:(vm_compute; reflexivity) m n a b f Hn) as K.
  apply in_range_spec in K. lia.
Qed.

Lemma flag_none_range : forall m n, mnemonic_name m = Some n -> 0 <= flag_none m < 8192.
Proof.
  intros m n Hn.
  pose proof (enum_known (fun m _ _ _ => in_range 0 (flag_none m) 8191)
                ltac:(vm_compute; reflexivity) m n true true (mkFlags true true true true true) Hn) as K.
  apply in_range_spec in K. lia.
Qed.

Lemma branch_not_jump : forall m, is_branch m = true -> is_jump m = false.
Proof. intros []; cbn; congruence. Qed.

(** ** The relation between the model's state and the machine *)
Record Rel (file : text) (st : St) (c : core) : Prop := {
  q_tab : tab_ok (st_symtab st) (c_env c);
  q_refs : refs_ok (st_unresolved st) (c_refs c);
  q_pc : st_pc st = c_pc c;
  q_line : st_line_num st = c_line c;
  q_total : st_total st = c_total c;
  q_out : st_out st = c_file c;
  q_len : List.length (lx_seq (st_lexer st)) = 8%nat;
  q_file : lx_file (st_lexer st) = file;
  q_stdout : st_stdout st = [] }.

(** a kept reference, [lines] being the lines processed so far *)
Record ref_good (lines : list text) (r : ForwardRef) : Prop := {
  g_line : exists line, 1 <= fr_line_num r /\
             nth_error lines (Z.to_nat (fr_line_num r - 1)) = Some line /\
             solid line (fr_operand_location r) /\ fr_source_line r = stripped line;
  g_kind : is_branch (i_mnemonic (fr_instr r)) || is_jump (i_mnemonic (fr_instr r)) = true;
  g_status : fr_operand_status r =
             if is_branch (i_mnemonic (fr_instr r)) then BRANCH_FORWARD_REFERENCE
             else JUMP_FORWARD_REFERENCE;
  g_flag : i_bitflag (fr_instr r) <> 0;
  g_pc : 0 <= fr_pc r <= 65535 + 3 * zlen lines }.

Record Bnd (lines : list text) (c : core) : Prop := {
  b_line : c_line c = 1 + zlen lines;
  b_pc : 0 <= c_pc c <= 65535 + 3 * zlen lines;
  b_total : 0 <= c_total c <= 3 * zlen lines;
  b_env : zlen (c_env c) <= zlen lines;
  b_refs : zlen (c_refs c) <= zlen lines;
  b_vals : forall n v, lookup (c_env c) n = Some v -> 0 <= v <= 65535 + 3 * zlen lines;
  b_good : Forall (ref_good lines) (c_refs c) }.

Lemma Bnd_init : Bnd [] core_init.
Proof. constructor; cbn; try lia; try discriminate. constructor. Qed.

Definition FEW : Z := 20000000.

(** undefined because of the size of the input only *)
Definition huge {A} (lines : list text) (r : M A) : Prop := (exists u, r = Undef u) /\ FEW <= zlen lines.

(** what one turn of the loop may do: the state relation is kept, or the line is in
    error and its report is printed *)
Inductive Step (file : text) (lines : list text) (line : text) (c : core) (r : M LineRes) (e : cres) : Prop :=
| Step_next c' st' : e = CNext c' -> r = Ret (Next st') -> Rel file st' c' ->
    Bnd (lines ++ [line]) c' -> Step file lines line c r e
| Step_finish c' st' : e = CFinish c' -> r = Ret (Finish st') -> Rel file st' c' ->
    Bnd lines c' -> Step file lines line c r e
| Step_err m pos st' out : e = CErr m pos -> r = Ret (Abort st') -> st_stdout st' = out ->
    Report file (c_line c) m line pos out -> st_out st' = c_file c -> Step file lines line c r e
| Step_huge : huge lines r -> Step file lines line c r e.

Lemma zlen_app : forall A (a b : list A), zlen (a ++ b) = zlen a + zlen b.
Proof. intros. unfold zlen. rewrite app_length. lia. Qed.

Lemma ref_good_more : forall lines line r, ref_good lines r -> ref_good (lines ++ [line]) r.
Proof.
  intros lines line r [(l & A & B & C & D) G2 G3 G4 G5]. constructor; auto.
  - exists l. split; [exact A|]. split; [|auto]. rewrite nth_error_app1; [exact B|].
    apply nth_error_Some. congruence.
  - rewrite zlen_app. change (zlen [line]) with 1. lia.
Qed.

Lemma int_small : forall z, INT_MIN <= z <= INT_MAX -> int_of z = Ret z.
Proof. exact int_of_ok. Qed.

Lemma zlen_pos : forall A (l : list A), 0 <= zlen l.
Proof. intros. unfold zlen. lia. Qed.

(** the end of an accepted line without instruction *)
Lemma finish_plain : forall file lines line c c1 st1, Rel file st1 c1 -> Bnd lines c -> c_line c1 = c_line c ->
  Bnd (lines ++ [line]) (c_next_line c1) ->
  Step file lines line c
    (line_num <- int_of (st_line_num st1 + 1) ;;
     Ret (Next (mkSt (st_symtab st1) (st_unresolved st1) (st_pc st1) line_num
                     (st_written st1) (st_total st1) (st_out st1) (st_lexer st1)
                     (st_tk st1) (st_instr st1) (st_stdout st1))))
    (CNext (c_next_line c1)).
Proof.
  intros file lines line c c1 st1 [A1 A2 A3 A4 A5 A6 A7 A8 A9] B L B'.
  unfold int_of. destruct (in_range INT_MIN (st_line_num st1 + 1) INT_MAX) eqn:E; cbn [bind].
  - eapply Step_next; [reflexivity|reflexivity| |exact B'].
    constructor; cbn; auto. congruence.
  - apply Step_huge. split; [eauto|]. apply in_range_false in E. destruct B as [B1 _ _ _ _ _ _].
    pose proof (zlen_pos _ lines). unfold FEW, INT_MIN, INT_MAX in *. lia.
Qed.
