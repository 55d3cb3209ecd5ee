(** Prop_Safe.v -- exactly the sources on which the program is safe (C86): memory, buffers and heap, whatever fails. *)
From Coq Require Import Permutation.
From Verif Require Import Base Model_Opcode Model_Error Model_Lexer Model_SymbolTable Model_Parser
  Model_ForwardRef Model_Generator Model_Main Model_Memory Model_Raw
  Spec_Isa Spec_Text Spec_Asm Spec_Diag Spec_Grammar Spec_Report Spec_Left Spec_Prog Spec_Total
  Proof_Base Proof_Heap Proof_HeapRun Proof_Alloc Proof_Run Proof_Source Prop_Run Prop_Memory Prop_Raw Prop_Total.

(** a source of less than 20 million bytes in which the reading never comes to a byte from $80 to $FE where a character of
    a token is expected: not behind a semicolon, not behind .END and not behind an error *)
Definition legible (src : text) : Prop :=
  small src /\ forall l st, pieces src l -> ~ reads_on 1 (mkD 0 [] []) l st Lost.

Lemma gaia_some : forall file src, gaia file src <> Diverge.
Proof. intros. apply C36_terminates. Qed.

(** with enough memory or not *)
Lemma legible_defined : forall env file src, legible src -> exists o, assemble env file src = Ret o.
Proof.
  intros env file src (HB & HL). destruct (C74_pieces src) as (l & HP).
  destruct (assemble_weaker env file src) as [-> |(o & -> & _)]; [|eauto].
  destruct (gaia file src) as [o|u|] eqn:E; [eauto| |exfalso; exact (gaia_some _ _ E)].
  exfalso. destruct (proj1 (C74_undefined file src l HB HP)) as (st & R); [eauto|]. exact (HL l st HP R).
Qed.

Theorem C86_exact : forall file src, small src -> (legible src <-> forall env, exists o, assemble env file src = Ret o).
Proof.
  intros file src HB. split.
  - intros H env. apply legible_defined. exact H.
  - intros H. split; [exact HB|]. intros l st HP R. destruct (proj2 (C74_undefined file src l HB HP)) as (u & U); [eauto|].
    destruct (H no_failure) as (o & O). unfold gaia in U. congruence.
Qed.

Lemma empty_legible : legible [].
Proof.
  split; [reflexivity|]. intros l st HP R. rewrite (pieces_lines _ _ HP) in R. inversion R.
Qed.

(** the whole program *)
Lemma legible_main : forall init_ok env fs src out,
  (forall bytes, fs_file fs src = Some bytes -> legible (map chr bytes)) -> exists r, main init_ok env fs src out = Ret r.
Proof.
  intros init_ok env fs src out H. unfold main. destruct init_ok; cbn [negb].
  2:{ destruct (print_none ERROR_MEMORY_ALLOCATION_FAIL src (-1)) as (o & ->). cbn [bind]. eauto. }
  destruct (fs_file fs src) as [bytes|] eqn:E.
  2:{ destruct (print_none ERROR_FILE_OPEN_FAIL src (-1)) as (o & ->). cbn [bind]. eauto. }
  destruct (fs_creatable fs out); cbn [negb].
  2:{ destruct (print_none ERROR_BINARY_FILE_CREATION_FAIL src (-1)) as (o & ->). cbn [bind]. eauto. }
  cbv zeta. match goal with |- context [assemble env src ?s] => destruct (legible_defined env src s) as (o & ->) end.
  { unfold fs_write. cbn [fs_file]. destruct (text_eqb src out); [exact empty_legible|]. rewrite E. apply H. reflexivity. }
  cbn [bind]. eauto.
Qed.

(** no freed or never allocated block is used, whichever single allocations fail; see C51_memory *)
Theorem C86_memory : forall orc fs src out,
  (forall bytes, fs_file fs src = Some bytes -> legible (map chr bytes)) ->
  exists code text fs' h, main_h orc fs src out = Ret (code, text, fs', h) /\
    files_open h = 0%nat /\
    (forall name, text_eqb name out = false -> fs_file fs' name = fs_file fs name) /\
    (memory_sufficed orc h -> main true no_failure fs src out = Ret (code, text, fs') /\ blocks_in_use h = 0%nat) /\
    (~ memory_sufficed orc h -> code = 1).
Proof.
  intros orc fs src out H. destruct (legible_main true no_failure fs src out H) as (r & R).
  destruct (main_h_spec orc fs src out r R (print_none _ _ _))
    as ([[code text] fs'] & h & w & leak & E & NF & HI & A & B & MM & C).
  exists code, text, fs', h. split; [exact E|].
  assert (HI' := HI). destruct HI' as ((P & _) & _).
  split; [|split; [exact C|]].
  { unfold files_open. apply length_zero_iff_nil. apply files_none.
    eapply Permutation_Forall; [symmetry; exact P|exact NF]. }
  destruct (sufficed_dec _ _ _ _ HI) as [(-> & S)|(-> & S)].
  - split; [|intros X; contradiction]. intros _. destruct (A eq_refl) as (<- & ->).
    split; [exact R|]. unfold blocks_in_use. apply length_zero_iff_nil. apply Permutation_nil. symmetry. exact P.
  - split; [intros X; contradiction|]. intros _. exact (B eq_refl).
Qed.

(** no access outside of the buffers, whatever the memory holds at the start and behind the NULs; see C78_defined *)
Theorem C86_buffers : forall env file src, legible src ->
  exists o, assemble env file src = Ret o /\
  forall junk strs tkstr, List.length strs = 8%nat -> Forall (fun a => List.length a = 64%nat) strs -> List.length tkstr = 64%nat ->
      assemble_raw junk strs tkstr env file src = Ret o.
Proof.
  intros env file src H. destruct (legible_defined env file src H) as (o & E). exists o. split; [exact E|].
  intros junk strs tkstr LS FS ST. apply C78_run; assumption.
Qed.

(** ** What makes a source legible *)
Lemma lost_line : forall l n st st' h, reads_on n st l st' h -> h = Lost -> exists line, In line l /\ HighByte line.
Proof.
  induction 1; intros E; try discriminate E.
  - destruct (IHreads_on E) as (x & I & Hx). exists x. split; [right; exact I|exact Hx].
  - exists line. split; [left; reflexivity|assumption].
Qed.
(** such bytes only behind semicolons *)
Theorem C86_comments : forall src, small src -> (forall l line, pieces src l -> In line l -> ~ high_in_code line) -> legible src.
Proof.
  intros src HB H. split; [exact HB|]. intros l st HP R. destruct (lost_line _ _ _ _ _ R eq_refl) as (line & I & Hx).
  apply (H l line HP I). apply LexUndefined_high. apply high_undefined. exact Hx.
Qed.
(** no such bytes at all *)
Theorem C86_ascii : forall src, small src -> Forall (fun c => code c < 128) src -> legible src.
Proof.
  intros src HB HA. apply C86_comments; [exact HB|]. intros l line HP I (pre & c & post & -> & _ & Hc).
  rewrite (pieces_lines _ _ HP) in I. rewrite Forall_forall in HA.
  specialize (HA c (lines_of_in _ _ c I (in_or_app _ _ _ (or_intror (in_eq c post))))). lia.
Qed.

(** ** The hypotheses are met: such a byte in a comment and another one behind .END *)
Definition foreign_src : text := T " LDA #1 ; caf" ++ [chr 233; ch_nl] ++ T " .END" ++ [ch_nl; chr 195; ch_nl].
Example C86_case : legible foreign_src /\ gaia (T "a.asm") foreign_src = Ret (mkOutcome 0 (T "Assembly successful." ++ [ch_nl] ++ T "2 (0x0002) bytes assembled." ++ [ch_nl] ++ T "0 symbols." ++ [ch_nl]) [169; 1]).
Proof.
  assert (E : gaia (T "a.asm") foreign_src = Ret (mkOutcome 0 (T "Assembly successful." ++ [ch_nl] ++ T "2 (0x0002) bytes assembled." ++ [ch_nl] ++ T "0 symbols." ++ [ch_nl]) [169; 1]))
    by (vm_compute; reflexivity).
  split; [|exact E]. split; [vm_compute; reflexivity|]. intros l st HP R.
  destruct (proj2 (C74_undefined (T "a.asm") foreign_src l ltac:(vm_compute; reflexivity) HP)) as (u & U); [eauto|]. congruence.
Qed.
(** without .END the second byte is reached *)
Example C86_not : ~ legible (T " LDA #1" ++ [ch_nl; chr 195; ch_nl]).
Proof.
  intros H. destruct (proj1 (C86_exact (T "a.asm") _ (proj1 H)) H no_failure) as (o & O). vm_compute in O. discriminate O.
Qed.
