(** Prop_Cases.v -- the theorems on concrete inputs: each one is applied, so its hypotheses are met. *)
From Verif Require Import Base Proof_Base Model_Opcode Model_Error Model_Lexer Model_Parser Model_Generator Model_Main Model_Io Spec_Isa Spec_Text Spec_Asm
  Spec_Report Spec_Grammar Spec_Diag Spec_Prog Proof_Error Proof_Lex2 Proof_Fun Proof_Core Proof_Source Proof_Whole Proof_At Proof_Grammar Proof_Prog Proof_Check
  Prop_Program Prop_Code Prop_Run Prop_Syntax Prop_Crash.

(** ** The demonstration program *)
Lemma demo_assembled : exists o, program_means (join demo) demo_stmts /\ small (join demo) /\
  gaia (T "a.asm") (join demo) = Ret o /\ exit_code o = 0 /\ monotone AsBuilt demo_stmts /\ List.length (binary o) = 531%nat.
Proof.
  destruct demo_ok as (A & B & _). destruct (program_check _ _ B A) as (_ & _ & M).
  assert (S : small (join demo)) by (unfold small; vm_compute; reflexivity).
  destruct (C26_as_built (T "a.asm") _ _ M S) as (o & E & X & _).
  assert (X0 : exit_code o = 0) by (apply X; eexists; vm_compute; reflexivity).
  exists o. split; [exact M|]. split; [exact S|]. split; [exact E|]. split; [exact X0|]. split; [vm_compute; repeat split; discriminate|].
  assert (Q : match gaia (T "a.asm") (join demo) with Ret o => List.length (binary o) = 531%nat | _ => False end) by (vm_compute; reflexivity).
  rewrite E in Q. exact Q.
Qed.

(** BNE LOOP is at 515: the branch to 514 is the byte -3; JSR SUB refers to a label that is defined later *)
Example C25_case : exists o code a md opc bs, gaia (T "a.asm") (join demo) = Ret o /\ reference AsBuilt demo_stmts = Some code /\
  nth_error code 2 = Some (a, opc :: bs) /\ documented "BNE" md opc.
Proof.
  destruct demo_assembled as (o & M & S & G & X & _).
  destruct (C25_documented_partial _ _ _ _ 5 None "BNE"%string (ODir (Lab (T "LOOP"))) M S G X eq_refl ltac:(discriminate))
    as (code & a & md & opc & bs & R & N & D).
  exists o, code, a, md, opc, bs. auto.
Qed.

Example C43_case : exists o, gaia (T "a.asm") (join demo) = Ret o /\ forall P : Prop,
  (forall code a opc bs, reference AsBuilt demo_stmts = Some code -> address AsBuilt demo_stmts 5 = Some a ->
     nth_error code 2 = Some (a, opc :: bs) -> decode opc = Some ("BNE"%string, REL, 1 + Z.of_nat (List.length bs)) -> P) -> P.
Proof.
  destruct demo_assembled as (o & M & S & G & X & _). exists o. split; [exact G|]. intros P H.
  destruct (C43_disassembles_partial _ _ _ _ 5 None "BNE"%string (ODir (Lab (T "LOOP"))) M S G X eq_refl ltac:(discriminate))
    as (code & fin & a & e & md & opc & bs & R & _ & A & L & N & D & Dm & _).
  assert (md = REL) as ->. { vm_compute in L. injection L as <-. vm_compute in Dm. congruence. }
  eapply H; eauto.
Qed.

Example C28_case : exists o code a md opc bs, gaia (T "a.asm") (join demo) = Ret o /\ reference AsBuilt demo_stmts = Some code /\
  nth_error code 7 = Some (a, opc :: bs) /\ documented "STA" md opc /\ operand_holds a md (Num 0x1234) 0x1234 bs.
Proof.
  destruct demo_assembled as (o & M & S & G & X & _).
  destruct (C28_not_truncated_partial _ _ _ _ 10 None "STA"%string (ODirY (Num 0x1234)) 0x1234 M S G X eq_refl eq_refl ltac:(discriminate) ltac:(discriminate))
    as (code & a & md & opc & bs & R & N & D & O).
  exists o, code, a, md, opc, bs. auto.
Qed.

Example C20_case : exists o j c, gaia (T "a.asm") (join demo) = Ret o /\ forward AsBuilt demo_stmts 6 /\ (6 < j)%nat /\
  address AsBuilt demo_stmts j = Some c /\ c = 525.
Proof.
  destruct demo_assembled as (o & M & S & G & X & _).
  assert (F : forward AsBuilt demo_stmts 6) by (apply forwardb_ok; vm_compute; reflexivity).
  destruct (C20_resolved _ _ _ _ 6 None "JSR"%string (ODir (Lab (T "SUB"))) M S G X eq_refl F) as (n & v & j & s & c & a & opc & bs & E & L & J & D & A & _).
  exists o, j, c. split; [exact G|]. split; [exact F|]. split; [exact L|]. split; [exact A|].
  injection E as <-. assert (K : (j < List.length (body demo_stmts))%nat) by (apply nth_error_Some; congruence).
  change (List.length (body demo_stmts)) with 12%nat in K.
  clear - J D A L K. do 7 (destruct j as [|j]; [lia|]).
  do 5 (destruct j as [|j]; [vm_compute in J; injection J as <-; vm_compute in D; try discriminate D; vm_compute in A; injection A as <-; reflexivity|]). lia.
Qed.

Example C27_case : exists o code a bs, gaia (T "a.asm") (join demo) = Ret o /\ address AsBuilt demo_stmts 11 = Some a /\ a = 530 /\
  nth_error code 8 = Some (a, bs) /\ holds_at (binary o) a bs.
Proof.
  destruct demo_assembled as (o & M & S & G & X & Mo & _).
  destruct (C27_ascending_partial _ _ _ _ 11 (Some (T "DONE")) "RTS"%string ONone M S G X Mo eq_refl) as (code & a & bs & R & A & N & H).
  exists o, code, a, bs. split; [exact G|]. split; [exact A|]. split; [vm_compute in A; congruence|]. auto.
Qed.

Example C29_case : exists o, gaia (T "a.asm") (join demo) = Ret o /\ Z.of_nat (List.length (binary o)) <= 0xFFFF + 3 * 9.
Proof.
  destruct demo_assembled as (o & M & S & G & X & _). exists o. split; [exact G|]. apply (C29_bound_partial _ _ _ _ M S G X).
Qed.

Example C35_case : exists o, gaia (T "a.asm") (join demo) = Ret o /\ SuccessReport 19 5 (stdout o).
Proof.
  destruct demo_assembled as (o & M & S & G & X & _). exists o. split; [exact G|].
  destruct (C35_summary _ _ _ _ M S G X) as (code & R & H). vm_compute in R. injection R as <-. exact H.
Qed.

(** ** Origins that move backwards *)
Definition back : list text :=
  [T " NOP"; T ".ORG $10"; T " LDA #1"; T ".ORG 4"; T "L STA $20"; T " JMP L"].
Definition back_stmts : list stmt := match statements back with Some p => p | None => [] end.

Lemma back_assembled : exists o, program_means (join back) back_stmts /\ small (join back) /\
  gaia (T "a.asm") (join back) = Ret o /\ exit_code o = 0 /\ ~ monotone AsBuilt back_stmts.
Proof.
  assert (A : statements back = Some back_stmts) by (vm_compute; reflexivity).
  destruct (program_check back back_stmts ltac:(vm_compute; reflexivity) A) as (_ & _ & M).
  assert (S : small (join back)) by (unfold small; vm_compute; reflexivity).
  destruct (C26_as_built (T "a.asm") _ _ M S) as (o & E & X & _).
  exists o. split; [exact M|]. split; [exact S|]. split; [exact E|]. split; [apply X; eexists; vm_compute; reflexivity|].
  intro K. vm_compute in K. repeat match goal with K : _ /\ _ |- _ => destruct K end. congruence.
Qed.

(** no label is used before its definition: the file is the image of the code *)
Lemma back_no_forward : no_forward_reference AsBuilt back_stmts.
Proof.
  intros k lab m o a e K A L.
  do 6 (destruct k as [|k]; [vm_compute in K, A, L; try discriminate; injection K as <- <- <-; injection A as <-; injection L as <-; vm_compute; reflexivity|]).
  destruct k; vm_compute in K; discriminate.
Qed.

Example C27_no_forward_case : exists o code, gaia (T "a.asm") (join back) = Ret o /\ reference AsBuilt back_stmts = Some code /\
  is_image code (binary o) /\ code = [(0, [0xEA]); (16, [0xA9; 1]); (4, [0x85; 0x20]); (6, [0x4C; 4; 0])].
Proof.
  destruct back_assembled as (o & M & S & G & X & _). destruct (C27_no_forward_partial _ _ _ _ M S G X back_no_forward) as (code & R & I).
  exists o, code. split; [exact G|]. split; [exact R|]. split; [exact I|]. vm_compute in R. congruence.
Qed.

(** the operand of LDA #1 at 17 is kept although the origin moves back behind it *)
Lemma back_spans : forall j x, spans AsBuilt back_stmts j x ->
  (j = 0%nat /\ x = 0) \/ (j = 2%nat /\ 16 <= x < 18) \/ (j = 4%nat /\ 4 <= x < 6) \/ (j = 5%nat /\ 6 <= x < 9).
Proof.
  intros j x (lab & m & o & a & b & K & A & B & R).
  do 6 (destruct j as [|j]; [vm_compute in K, A, B; try discriminate; injection A as <-; injection B as <-; lia|]).
  destruct j; vm_compute in K; discriminate.
Qed.

Lemma back_forward : forall j, ~ forward AsBuilt back_stmts j.
Proof. intros j (lab & m & o & a & e & K & A & L & U). rewrite (back_no_forward _ _ _ _ _ _ K A L) in U. discriminate. Qed.

Example C27_kept_case : exists o a bs, gaia (T "a.asm") (join back) = Ret o /\ address AsBuilt back_stmts 2 = Some a /\
  nth_error bs (Z.to_nat (17 - a)) = Some 1 /\ nth_error (binary o) 17 = Some 1.
Proof.
  destruct back_assembled as (o & M & S & G & X & _).
  destruct (C27_kept_partial _ _ _ _ 2 17 M S G X) as (code & a & bs & b & R & A & N & B & F).
  - do 5 eexists. split; [vm_compute; reflexivity|]. split; [vm_compute; reflexivity|]. split; [vm_compute; reflexivity|]. lia.
  - intros j Hj H. destruct (back_spans _ _ H) as [[? ?]|[[? ?]|[[? ?]|[? ?]]]]; lia.
  - intros j Hj [H _]. exact (back_forward j H).
  - intros j Hj H. destruct (back_forward j H).
  - exists o, a, bs. split; [exact G|]. split; [exact A|].
    assert (b = 1) as ->; [|auto]. vm_compute in R. injection R as <-. vm_compute in N. injection N as <- <-. vm_compute in B. congruence.
Qed.

(** ** Lines and reports *)
Example C11_case : forall lx0 tk0 ins0, List.length (lx_seq lx0) = 8%nat -> lx_file lx0 = T "a.asm" ->
  exists lx tk ins code lx' out, lex_line (T "LDA $10 $20") lx0 tk0 ins0 3 = Ret (LEXER_SUCCESS, lx, tk, ins, []) /\
    parse_line lx = Ret (code, lx', out) /\ code < 0 /\ Report (T "a.asm") 3 "illegal syntax" (T "LDA $10 $20") (Some 8%nat) out.
Proof.
  intros lx0 tk0 ins0 H8 Hf.
  set (toks := [(TMnemonic "LDA", 0%nat); (TNumber 16, 4%nat); (TNumber 32, 8%nat)]).
  assert (L : Lexes literal_wrapping true 0 (T "LDA $10 $20") toks) by (apply Lexes_wr, tokens_ok; vm_compute; reflexivity).
  destruct (C11_grammar_partial (T "LDA $10 $20") (T "a.asm") 3 lx0 tk0 ins0 toks H8 Hf L ltac:(cbn; lia)) as
    (lx & tk & ins & E & [(_ & [(s & A)|A])|(code & lx' & out & i & P & N & R & D & _)]).
  - exfalso. inversion A; subst. match goal with H : Operand _ _ |- _ => inversion H end.
  - exfalso. destruct (junk_compiles _ A) as (c & K). vm_compute in K. discriminate.
  - exists lx, tk, ins, code, lx', out. split; [exact E|]. split; [exact P|]. split; [exact N|].
    assert (i = 2%nat) as ->; [|exact R].
    destruct (compile_departs (map fst toks) _ _ eq_refl) as [D' _]. exact (departs_unique _ _ _ D D').
Qed.

(** a tab counts up to the next tab stop *)
Example C33_case : exists shown head,
  print_error (Some (ch_tab :: T "LDA $10 $20")) ERROR_ILLEGAL_SEQUENCE (Some 9%nat) (T "f") 3 =
    Ret (head ++ shown ++ [ch_nl] ++ repeat ch_sp 16 ++ T "^~~~~~" ++ [ch_nl; ch_nl]).
Proof.
  destruct (C33_arrow (ch_tab :: T "LDA $10 $20") ERROR_ILLEGAL_SEQUENCE 9 (T "f") 3 "illegal syntax") as (shown & head & E & _).
  - exists "L"%char. split; [right; left; reflexivity|]. intros [K|[K|[K|K]]]; discriminate.
  - cbn. lia.
  - reflexivity.
  - exists shown, head. exact E.
Qed.

Example C34_case : Forall2 read_as [T " NOP"; []; T " RTS"] (chunks (T " NOP" ++ [ch_nl] ++ [ch_nl] ++ T " RTS")).
Proof.
  apply C34_lines_partial. split; [apply fitsb_ok; vm_compute; reflexivity|].
  right. exists [T " NOP"; []], (T " RTS"). split; [reflexivity|]. split; [discriminate|reflexivity].
Qed.

(** ** Definedness *)
(** the bytes above 127 are in the comment *)
Example C37_case : forall env file, exists o, assemble env file (T " NOP ; " ++ [chr 200; chr 255; ch_nl]) = Ret o.
Proof.
  intros env file. apply C37_defined; [vm_compute; reflexivity|].
  intros line [<- |[]] (pre & c & post & E & N & Hc).
  assert (F : forall n, nth_error (T " NOP ; " ++ [chr 200; chr 255; ch_nl]) n = nth_error (pre ++ c :: post) n) by (intro n; f_equal; exact E).
  assert (In c (T " NOP ;") \/ In ";"%char pre) as [K|K].
  { destruct (Nat.le_gt_cases 6 (List.length pre)) as [K|K].
    - right. specialize (F 5%nat). rewrite (nth_error_app1 pre) in F by lia. eapply nth_error_In. symmetry. exact F.
    - left. specialize (F (List.length pre)). rewrite (nth_error_app2 pre) in F by lia. rewrite Nat.sub_diag in F.
      apply (nth_error_In _ (List.length pre)). change (nth_error (c :: post) 0) with (Some c) in F. rewrite <- F.
      do 6 (destruct pre as [|? pre]; [reflexivity|]). cbn in K. lia. }
  - cbn in K. repeat (destruct K as [<- |K]; [exfalso; destruct Hc as [Hc _]; apply Hc; reflexivity|]). exact K.
  - contradiction.
Qed.

(** ** Files *)
Definition folder : FileSystem := fs_one (T "a.asm") (T "NOP" ++ [ch_nl] ++ T "LDA" ++ [ch_nl]) (T "notes") (T "old").

Example C40_case : exists text fs', main true no_failure folder (T "a.asm") (T "a.out") = Ret (1, text, fs') /\
  fs_file fs' (T "notes") = Some (map code (T "old")) /\ fs_file fs' (T "a.asm") = fs_file folder (T "a.asm") /\ fs_file fs' (T "a.out") = Some [0xEA].
Proof.
  do 2 eexists. match goal with |- ?g = _ /\ _ => assert (K : g = Ret (1, _, _)) by (vm_compute; reflexivity) end.
  split; [exact K|]. split; [|split; [|vm_compute; reflexivity]].
  - rewrite (C40_others_partial _ _ _ _ _ _ _ _ (T "notes") K ltac:(discriminate)). vm_compute. reflexivity.
  - apply (C41_source_kept_partial _ _ _ _ _ _ _ _ K ltac:(discriminate)).
Qed.

Example C42_case : main true no_failure folder (T "b.asm") (T "a.out") =
  Ret (1, T "ERROR: b.asm could not be opened" ++ [ch_nl; ch_nl], folder).
Proof. apply C42_no_source. vm_compute. reflexivity. Qed.

Example C42_output_case : main true no_failure (mkFS (fs_file folder) (fun _ => false)) (T "a.asm") (T "a.out") =
  Ret (1, T "ERROR: assembled binary file could not be created" ++ [ch_nl; ch_nl], mkFS (fs_file folder) (fun _ => false)).
Proof. eapply C42_no_output; [vm_compute; reflexivity|reflexivity]. Qed.

(** every second call on the output fails: same status and text *)
Example C61_case : exists text fs'' ms,
  main_io all_reads (fun n => if Nat.even n then Some (mkOFile [] 0) else None) true no_failure folder (T "a.asm") (T "a.out") = Ret ((1, text, fs''), ms) /\
  fs_file fs'' (T "notes") = Some (map code (T "old")).
Proof.
  destruct C40_case as (text & fs' & M & N & _).
  destruct (C61_unnoticed_partial (fun n => if Nat.even n then Some (mkOFile [] 0) else None) _ _ _ _ _ _ _ _ M) as (fs'' & ms & H & O).
  exists text, fs'', ms. split; [exact H|]. rewrite O by discriminate. exact N.
Qed.
