(** Prop_Ends.v -- C54: line ends. *)
From Verif Require Import Base Spec_Prog Proof_Base Model_Opcode Model_Error Model_Lexer Model_SymbolTable
  Model_Parser Model_ForwardRef Model_Generator Model_Main Spec_Isa Spec_Text Spec_Asm Spec_Report Spec_Alike
  Proof_Prog Proof_Check Proof_Alike Prop_Same.

Lemma alike_end_cr : forall l, alike l (l ++ [ch_cr]) /\ alike (l ++ [ch_cr]) l.
Proof.
  induction l as [|c l [A B]]; cbn [app].
  - split; [apply (alike_end [] [] [] [ch_cr])|apply (alike_end [] [] [ch_cr] [])]; try constructor; reflexivity.
  - split; apply alike_char; auto.
Qed.

Lemma cr_alike : forall l l', same_but_cr l l' -> alike_line l l'.
Proof.
  intros l l' [-> |[-> | ->]]; exists [], []; do 2 eexists; (split; [constructor|]); (split; [constructor|]); (split; [reflexivity|]); (split; [reflexivity|]).
  - apply alike_refl_text.
  - apply alike_end_cr.
  - apply alike_end_cr.
Qed.

(** the lines of the two sources may end with LF or CR LF, and the last one need not have an end: [source_of] *)
Theorem C54_line_ends : forall file lines lines' src src', source_of lines src -> source_of lines' src' -> small src -> small src' ->
  Forall2 same_but_cr lines lines' -> same_result file (gaia file src) (gaia file src').
Proof.
  intros file lines lines' src src' S S' B B' F. eapply gaia_lines; eauto. eapply Forall2_impl; [|exact F].
  intros. apply alike_reads, cr_alike. assumption.
Qed.

(** the end of the last line *)
Theorem C54_last_newline : forall file lines last, Forall fits lines -> fits last -> last <> [] ->
  small (join lines ++ last ++ [ch_nl]) -> same_result file (gaia file (join lines ++ last)) (gaia file (join lines ++ last ++ [ch_nl])).
Proof.
  intros file lines last F Fl Nl B.
  assert (J : join lines ++ last ++ [ch_nl] = join (lines ++ [last])).
  { unfold join. rewrite map_app, concat_app. cbn [map List.concat]. rewrite app_nil_r. reflexivity. }
  assert (F' : Forall fits (lines ++ [last])) by (apply Forall_app; auto).
  apply (C54_line_ends file (lines ++ [last]) (lines ++ [last])).
  - split; [exact F'|]. right. exists lines, last. auto.
  - split; [exact F'|]. left. exact J.
  - unfold small in *. rewrite !app_length in *. cbn in B. lia.
  - exact B.
  - clear. induction (lines ++ [last]); constructor; auto. left; reflexivity.
Qed.

Example C54_case : exists file lines lines' src src' o, source_of lines src /\ source_of lines' src' /\ small src /\ small src' /\
  Forall2 same_but_cr lines lines' /\ src <> src' /\ gaia file src = Ret o /\ exit_code o = 0 /\ binary o = [208; 0; 165; 5].
Proof.
  exists (T "a.asm"), [T " bne L"; T ""; T "L lda 5"], [T " bne L" ++ [ch_cr]; [ch_cr]; T "L lda 5"]. do 2 eexists. eexists.
  split; [split; [apply fitsb_ok; vm_compute; reflexivity|left; reflexivity]|].
  split; [split; [apply fitsb_ok; vm_compute; reflexivity|right; exists [T " bne L" ++ [ch_cr]; [ch_cr]], (T "L lda 5"); split; [reflexivity|split; [discriminate|reflexivity]]]|].
  do 2 (split; [vm_compute; reflexivity|]). split; [repeat constructor; try (right; left; reflexivity); left; reflexivity|].
  split; [discriminate|]. split; [vm_compute; reflexivity|]. split; reflexivity.
Qed.
