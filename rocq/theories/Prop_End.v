(** Prop_End.v -- C30: nothing behind a line with .END counts. *)
From Verif Require Import Base Proof_Base Model_Opcode Model_Error Model_Lexer Model_SymbolTable
  Model_Parser Model_ForwardRef Model_Generator Model_Main Spec_Isa Spec_Text Spec_Report
  Proof_Lex1 Proof_Lex2 Proof_Run Proof_Source Proof_Whole Proof_Check Proof_Eight.

Lemma end_line : forall e read, line_means e SEnd -> read_as e read -> exists k, Lexes wr true 0 (cstring read) [(TDirective DEnd, k)].
Proof.
  intros e read (toks & L & D) R. remember (map fst toks) as ts eqn:E. remember SEnd as s eqn:S. destruct D; try discriminate.
  destruct toks as [|[t k] [|]]; try discriminate. injection E as <-. exists k. apply Lexes_wr. eapply Lexes_read; eauto.
Qed.

(** [pre] is empty or ends with a newline, so [e] is a line of the file *)
Theorem C30_end : forall env file pre e post, (pre = [] \/ exists p, pre = p ++ [ch_nl]) -> fits e -> line_means e SEnd ->
  assemble env file (pre ++ e ++ ch_nl :: post) = assemble env file (pre ++ e ++ [ch_nl]).
Proof.
  intros env file pre e post D F M. destruct (end_line e (e ++ [ch_nl]) M (or_introl eq_refl)) as (k & L). eapply assemble_end; eauto.
Qed.

Example C30_example : exists file pre e post o o', (pre = [] \/ exists p, pre = p ++ [ch_nl]) /\ fits e /\ line_means e SEnd /\
  gaia file (pre ++ e ++ ch_nl :: post) = Ret o /\ gaia file (pre ++ ch_nl :: post) = Ret o' /\ exit_code o = 0 /\ exit_code o' = 1.
Proof.
  exists (T "a.asm"), (T "L: LDA #$10" ++ [ch_nl]), (T " .end ; done"), (T "JMP !!"). do 2 eexists.
  split; [right; eexists; reflexivity|]. split; [split; [vm_compute; lia|]|].
  - intro K. assert (E : existsb (Ascii.eqb ch_nl) (T " .end ; done") = true) by (apply existsb_exists; exists ch_nl; split; [exact K|reflexivity]).
    revert E. vm_compute. discriminate.
  - split; [apply statement_ok; vm_compute; reflexivity|]. split; [vm_compute; reflexivity|]. split; [vm_compute; reflexivity|]. split; reflexivity.
Qed.
