(** Prop_Run.v -- theorems about whole runs: failures are reported (C32), lines (C34),
    termination (C36), defined behaviour (C37, C38), memory (C39), files (C40-C42). *)
From Verif Require Import Base Proof_Base Model_Opcode Model_Error Model_Lexer Model_SymbolTable
  Model_Parser Model_ForwardRef Model_Generator Model_Main Spec_Isa Spec_Text Spec_Report
  Proof_Chars Proof_Error Proof_Lex1 Proof_Lex2 Proof_Core Proof_Sim2 Proof_Run Proof_Alloc Proof_Source.

(** ** C36 *)
Theorem C36_terminates : forall env file src, assemble env file src <> Diverge.
Proof.
  intros env file src. destruct (assemble_weaker env file src) as [-> |(o & -> & _)]; [|discriminate].
  destruct (Run_total (lines_of src) core_init) as (r & R).
  destruct (gaia_run file src r R) as [S|[(u & ->) _]]; [|discriminate].
  destruct r; cbn [settled] in S.
  - rewrite S; discriminate.
  - destruct S as (out & line & -> & _); discriminate.
  - rewrite S; discriminate.
  - rewrite S; discriminate.
Qed.

(** ** C37 and C38 *)
(** the only two sources of undefined behaviour: a line with a byte in $80-$FE outside
    of a comment, or a file of 20 million bytes or more *)
Theorem C37_defined : forall env file src,
  Z.of_nat (List.length src) < 20000000 ->
  (forall line, In line (lines_of src) -> ~ high_in_code line) ->
  exists o, assemble env file src = Ret o.
Proof.
  intros env file src HL HA. destruct (assemble_weaker env file src) as [-> |(o & -> & _)]; [|eauto].
  destruct (Run_total (lines_of src) core_init) as (r & R).
  destruct (gaia_run file src r R) as [S|[_ F]]; [|unfold FEW, zlen in F; lia].
  destruct r; cbn [settled] in S.
  - eauto.
  - destruct S as (out & line & -> & _). eauto.
  - eauto.
  - exfalso. destruct (Run_undef_line _ _ _ R eq_refl) as (line & Hin & U).
    apply (HA line Hin). apply LexUndefined_high. exact U.
Qed.

Theorem C37_ascii : forall env file src,
  Z.of_nat (List.length src) < 20000000 -> Forall (fun c => code c < 128) src ->
  exists o, assemble env file src = Ret o.
Proof.
  intros env file src HL HA. apply C37_defined; [exact HL|].
  intros line Hin (pre & c & post & -> & _ & Hc). rewrite Forall_forall in HA.
  specialize (HA c (lines_of_in _ _ c Hin (in_or_app _ _ _ (or_intror (in_eq c post))))). lia.
Qed.

Lemma print_none : forall code file n, exists out, print_error None code None file n = Ret out.
Proof. intros. unfold print_error. destruct (error_message code file); eauto. Qed.

(** the whole program, from the opening of the files on *)
Theorem C37_main : forall init_ok env fs src out,
  (forall bytes, fs_file fs src = Some bytes ->
     Z.of_nat (List.length bytes) < 20000000 /\ Forall (fun b => 0 <= b < 128) bytes) ->
  exists r, main init_ok env fs src out = Ret r.
Proof.
  intros init_ok env fs src out H. unfold main. destruct init_ok; cbn [negb].
  2:{ destruct (print_none ERROR_MEMORY_ALLOCATION_FAIL src (-1)) as (o & ->). cbn [bind]. eauto. }
  destruct (fs_file fs src) as [bytes|] eqn:E.
  2:{ destruct (print_none ERROR_FILE_OPEN_FAIL src (-1)) as (o & ->). cbn [bind]. eauto. }
  destruct (fs_creatable fs out); cbn [negb].
  2:{ destruct (print_none ERROR_BINARY_FILE_CREATION_FAIL src (-1)) as (o & ->). cbn [bind]. eauto. }
  cbn [fs_write fs_file]. destruct (H bytes eq_refl) as [HL HA].
  match goal with |- context [assemble env src ?s] => destruct (C37_ascii env src s) as (o & ->) end.
  - destruct (text_eqb src out); [cbn; lia|]. rewrite E, map_length. exact HL.
  - destruct (text_eqb src out); [constructor|]. rewrite E. rewrite Forall_forall in *.
    intros c Hc. apply in_map_iff in Hc. destruct Hc as (b & <- & Hb). specialize (HA b Hb).
    rewrite code_chr by lia. lia.
  - cbn [bind]. eauto.
Qed.

(** undefined behaviour is reached as soon as such a byte is where a token starts *)
Theorem C38_high_byte_undefined : forall file c rest,
  128 <= code c < 255 -> gaia file (c :: rest) = Undef UbCtype.
Proof.
  intros file c rest Hc. destruct (Run_total (lines_of (c :: rest)) core_init) as (r & R).
  assert (exists line lines, lines_of (c :: rest) = (c :: line) :: lines) as (line & lines & E).
  { unfold lines_of. destruct (fgets 127 (c :: rest)) as [l rr] eqn:F.
    rewrite (chunks_cons _ l rr) by (auto; discriminate). cbn [map].
    rewrite fgets_cons in F.
    2:{ intros ->. destruct Hc as [Hc _]. vm_compute in Hc. congruence. }
    - injection F as <- _. cbn [cstring].
      destruct (Ascii.eqb c ch_nul) eqn:E2; [|eauto].
      apply Ascii.eqb_eq in E2. subst c. exfalso. destruct Hc as [Hc _]. vm_compute in Hc. congruence. }
  rewrite E in R.
  assert (U : Run (lines_of (c :: rest)) core_init FinUndef).
  { rewrite E. apply Run_undef. exists [], true, 0%nat, (c :: line). split; [constructor|]. split; [cbn; lia|].
    constructor. exact Hc. }
  destruct (gaia_run file _ _ U) as [S|[(u & S) _]]; [exact S|].
  (* too long a file: the first line is still the same *)
  unfold gaia in *. rewrite assemble_after in *. clear S. unfold lines_of in E.
  destruct (chunks (c :: rest)) as [|ch chs]; [discriminate|]. cbn [map] in E. injection E as E1 _.
  cbn [run_lines]. rewrite E1. unfold process_line.
  assert (LexUndefined (c :: line)) as LU.
  { exists [], true, 0%nat, (c :: line). split; [constructor|split; [cbn; lia|constructor; exact Hc]]. }
  cbn [init_state st_lexer st_tk st_instr st_line_num].
  rewrite (lex_line_undef (c :: line) file) by (try reflexivity; exact LU). reflexivity.
Qed.

(** C38 as written fails: a byte above $7F outside of comments is not an ordinary
    illegal character *)
Theorem C38_refuted : exists file src,
  gaia file src = Undef UbCtype /\ exists c, In c src /\ 128 <= code c.
Proof.
  exists (T "a.asm"), (chr 195 :: chr 169 :: [ch_nl]). split; [vm_compute; reflexivity|].
  exists (chr 195). split; [left; reflexivity|vm_compute; discriminate].
Qed.

(** what holds of C38: in a comment such bytes are harmless *)
Theorem C38_comments_partial : forall env file lines src,
  source_of lines src -> Z.of_nat (List.length src) < 20000000 ->
  Forall (fun line => ~ high_in_code line) lines ->
  exists o, assemble env file src = Ret o.
Proof.
  intros env file lines src HS HL HF. apply C37_defined; [exact HL|].
  pose proof (chunks_source _ _ HS) as F2. intros b Hb (pre & c & post & Eb & Np & Hc).
  unfold lines_of in Hb. apply in_map_iff in Hb. destruct Hb as (ch & <- & Hch).
  destruct (cstring_prefix ch) as (t & Et). rewrite Eb in Et.
  assert (exists line, In line lines /\ read_as line ch) as (line & Hl & Hr).
  { clear - F2 Hch. induction F2; [destruct Hch|]. destruct Hch as [-> |Hch].
    - exists x. split; [left|]; auto.
    - destruct (IHF2 Hch) as (l0 & A & B). exists l0. split; [right|]; auto. }
  rewrite Forall_forall in HF. apply (HF line Hl).
  rewrite <- app_assoc in Et. cbn [app] in Et.
  destruct Hr as [Hr|Hr]; rewrite Hr in Et; [|exists pre, c, (post ++ t); auto].
  (* the byte is not the newline *)
  assert (exists post', line = pre ++ c :: post') as (post' & ->); [|exists pre, c, post'; auto].
  clear - Et Hc. revert line Et. induction pre as [|x pre IH]; intros line Et; destruct line as [|y line]; cbn in Et.
  - injection Et as E _. subst c. exfalso. destruct Hc as [Hc _]. vm_compute in Hc. congruence.
  - injection Et as -> _. exists line. reflexivity.
  - exfalso. injection Et as _ E. destruct pre; discriminate.
  - injection Et as -> E. destruct (IH _ E) as (post' & ->). exists post'. reflexivity.
Qed.

Example C38_comments_case : exists lines src, source_of lines src /\ lines <> [] /\
  Forall (fun line => ~ high_in_code line) lines /\ exists c, In c src /\ 128 <= code c.
Proof.
  exists [T "NOP ;" ++ [chr 195]], (join [T "NOP ;" ++ [chr 195]]).
  split; [|split; [discriminate|split]].
  - split; [|left; reflexivity]. constructor; [|constructor].
    split; [vm_compute; lia|]. vm_compute. intuition discriminate.
  - constructor; [|constructor]. intros (pre & c & post & E & N & H).
    destruct pre as [|c0 pre]; cbn [app] in E; [injection E as <- _; vm_compute in H; intuition congruence|].
    destruct pre as [|c1 pre]; cbn [app] in E; [injection E as _ <- _; vm_compute in H; intuition congruence|].
    destruct pre as [|c2 pre]; cbn [app] in E; [injection E as _ _ <- _; vm_compute in H; intuition congruence|].
    destruct pre as [|c3 pre]; cbn [app] in E; [injection E as _ _ _ <- _; vm_compute in H; intuition congruence|].
    destruct pre as [|c4 pre]; cbn [app] in E; [injection E as _ _ _ _ <- _; vm_compute in H; intuition congruence|].
    injection E as _ _ _ _ <- _. apply N. do 4 right. left. reflexivity.
  - exists (chr 195). split; [vm_compute; tauto|vm_compute; discriminate].
Qed.

(** ** C32 *)
(** when the assembler fails on a file without NUL bytes whose lines fit, it has
    printed one report, which names a line of the file and shows it; except for a line
    of more than eight tokens *)
Theorem C32_reported_partial : forall file lines src o,
  source_of lines src -> ~ In ch_nul src ->
  gaia file src = Ret o -> exit_code o <> 0 ->
  (exists n line read m pos,
     1 <= n /\ nth_error lines (Z.to_nat (n - 1)) = Some line /\ read_as line read /\
     Report file n m read pos (stdout o)) \/
  (stdout o = [] /\ exists line read, In line lines /\ read_as line read /\ TooManyTokens literal_wrapping read).
Proof.
  intros file lines src o HS HN HG HE.
  pose proof (chunks_source _ _ HS) as F2.
  assert (F3 : Forall2 read_as lines (lines_of src)).
  { assert (forall ch, In ch (chunks src) -> cstring ch = ch) as K.
    { intros ch Hch. apply cstring_plain. intro Hn. apply HN.
      rewrite <- (chunks_concat src). apply in_concat. eauto. }
    unfold lines_of. revert F2 K. generalize (chunks src) as l. clear.
    intros l H. induction H; intro K; cbn [map]; constructor.
    - rewrite K by (left; reflexivity). assumption.
    - apply IHForall2. intros ch Hch. apply K. right; exact Hch. }
  destruct (Run_total (lines_of src) core_init) as (r & R).
  destruct (gaia_run file src r R) as [S|[(u & S) _]]; [|congruence].
  destruct r as [c f|m n pos f|f|]; cbn [settled] in S.
  - rewrite HG in S. injection S as ->. exfalso. apply HE. reflexivity.
  - destruct S as (out & b & S & Hn & Hb & Rep). rewrite HG in S. injection S as ->. left.
    assert (exists line, nth_error lines (Z.to_nat (n - 1)) = Some line /\ read_as line b) as (line & A & B).
    { revert Hb F3. generalize (Z.to_nat (n - 1)) as k, (lines_of src) as l. clear. intros k l Hb F3. revert k Hb.
      induction F3; intros [|k] Hb; cbn in Hb; try discriminate.
      - injection Hb as ->. exists x. split; [reflexivity|assumption].
      - apply IHF3. exact Hb. }
    exists n, line, b, m, pos. auto.
  - rewrite HG in S. injection S as ->. right. split; [reflexivity|].
    destruct (Run_silent_line _ _ _ _ R eq_refl) as (b & Hb & TM).
    assert (exists line, In line lines /\ read_as line b) as (line & A & B).
    { clear - F3 Hb. induction F3; [destruct Hb|]. destruct Hb as [-> |Hb].
      - exists x. split; [left|]; auto.
      - destruct (IHF3 Hb) as (l0 & A & B). exists l0. split; [right|]; auto. }
    eauto 6.
  - congruence.
Qed.

(** C32 as written fails: no message at all for a line of more than eight tokens *)
Theorem C32_refuted : exists file src o,
  gaia file src = Ret o /\ exit_code o <> 0 /\ stdout o = [].
Proof.
  exists (T "a.asm"), (T "LDA # # # # # # # #" ++ [ch_nl]). eexists.
  split; [vm_compute; reflexivity|]. split; [discriminate|reflexivity].
Qed.

Example C32_case : exists o, gaia (T "a.asm") (T "NOP" ++ [ch_nl] ++ T "LDA #" ++ [ch_nl]) = Ret o /\
  exit_code o <> 0 /\ stdout o <> [].
Proof. eexists. split; [vm_compute; reflexivity|]. split; discriminate. Qed.

(** ** C34 *)
(** the lines of a file, of at most 126 characters, are read one by one *)
Theorem C34_lines_partial : forall lines src, source_of lines src -> Forall2 read_as lines (chunks src).
Proof. exact chunks_source. Qed.

(** C34 as written fails: a comment longer than the buffer spills into the code *)
Theorem C34_refuted : exists file comment o1 o2,
  gaia file (T "NOP ;" ++ comment ++ [ch_nl]) = Ret o1 /\
  gaia file (T "NOP ;" ++ [ch_nl]) = Ret o2 /\
  ~ In ch_nl comment /\ exit_code o1 = exit_code o2 /\ binary o1 <> binary o2.
Proof.
  exists (T "a.asm"), (repeat "x"%char 122 ++ T "BRK"). do 2 eexists.
  split; [vm_compute; reflexivity|]. split; [vm_compute; reflexivity|].
  split; [|split; [reflexivity|discriminate]].
  intro H. apply in_app_or in H. destruct H as [H|H].
  - apply repeat_spec in H. discriminate.
  - cbn in H. intuition discriminate.
Qed.

(** ** C39 *)
Theorem C39_memory : forall env file src o,
  assemble env file src = Ret o -> exit_code o = 0 -> gaia file src = Ret o.
Proof.
  intros env file src o H E. destruct (assemble_weaker env file src) as [W|(o' & W & F)]; [congruence|].
  rewrite W in H. injection H as ->. rewrite E in F. discriminate.
Qed.

Theorem C39_main : forall init_ok env fs src out text fs',
  main init_ok env fs src out = Ret (0, text, fs') ->
  main true no_failure fs src out = Ret (0, text, fs').
Proof.
  intros init_ok env fs src out text fs' H. unfold main in *. destruct init_ok; cbn [negb] in *.
  2:{ destruct (print_none ERROR_MEMORY_ALLOCATION_FAIL src (-1)) as (o & E). rewrite E in H. discriminate. }
  destruct (fs_file fs src) as [bytes|].
  2:{ destruct (print_none ERROR_FILE_OPEN_FAIL src (-1)) as (o & E). rewrite E in H. discriminate. }
  destruct (fs_creatable fs out); cbn [negb] in *.
  2:{ destruct (print_none ERROR_BINARY_FILE_CREATION_FAIL src (-1)) as (o & E). rewrite E in H. discriminate. }
  cbn zeta in *.
  match goal with |- context [assemble no_failure src ?s] => set (x := s) in * end.
  destruct (assemble env src x) as [o| |] eqn:E; cbn [bind] in H; try discriminate.
  injection H as H1 H2 H3. rewrite (C39_memory env src x o E H1 : assemble no_failure src x = Ret o).
  cbn [bind]. congruence.
Qed.

Example C39_case : exists env o, env 1 <> alloc_all /\
  assemble env (T "a.asm") (T "START: NOP" ++ [ch_nl]) = Ret o /\ exit_code o = 1.
Proof.
  exists (fun _ => mkAlloc true false true true). eexists. split; [discriminate|].
  split; [vm_compute; reflexivity|reflexivity].
Qed.

(** ** C40 *)
Definition fs_one (name content : text) (other old : text) : FileSystem :=
  mkFS (fun n => if text_eqb n name then Some (map code content)
                 else if text_eqb n other then Some (map code old) else None) (fun _ => true).

(** C40 as written fails: the output file is emptied, then holds the code before the error *)
Theorem C40_refuted : exists fs src out text fs',
  main true no_failure fs src out = Ret (1, text, fs') /\
  fs_file fs out = Some (map code (T "old")) /\ fs_file fs' out = Some [0xEA].
Proof.
  exists (fs_one (T "a.asm") (T "NOP" ++ [ch_nl] ++ T "LDA" ++ [ch_nl]) (T "a.out") (T "old")),
    (T "a.asm"), (T "a.out").
  do 2 eexists. split; [vm_compute; reflexivity|]. split; vm_compute; reflexivity.
Qed.

(** what holds: no other file is touched, whatever happens *)
Theorem C40_others_partial : forall init_ok env fs src out code text fs' name,
  main init_ok env fs src out = Ret (code, text, fs') -> name <> out ->
  fs_file fs' name = fs_file fs name.
Proof.
  intros init_ok env fs src out code0 text0 fs' name H N. unfold main in *. destruct init_ok; cbn [negb] in *.
  2:{ destruct (print_none ERROR_MEMORY_ALLOCATION_FAIL src (-1)) as (o & E). rewrite E in H. cbn [bind] in H. congruence. }
  destruct (fs_file fs src) as [bytes|].
  2:{ destruct (print_none ERROR_FILE_OPEN_FAIL src (-1)) as (o & E). rewrite E in H. cbn [bind] in H. congruence. }
  destruct (fs_creatable fs out); cbn [negb] in *.
  2:{ destruct (print_none ERROR_BINARY_FILE_CREATION_FAIL src (-1)) as (o & E). rewrite E in H. cbn [bind] in H. congruence. }
  cbn zeta in *.
  match goal with H : context [assemble env src ?s] |- _ => set (x := s) in * end.
  destruct (assemble env src x) as [o| |] eqn:E; cbn [bind] in H; try discriminate.
  injection H as _ _ <-. cbn [fs_write fs_file]. apply text_eqb_neq in N. rewrite N. reflexivity.
Qed.

(** ** C41 *)
Theorem C41_refuted : exists fs src text fs',
  main true no_failure fs src src = Ret (0, text, fs') /\
  fs_file fs src = Some (map code (T "NOP" ++ [ch_nl])) /\ fs_file fs' src = Some [].
Proof.
  exists (fs_one (T "a.asm") (T "NOP" ++ [ch_nl]) (T "a.out") (T "old")), (T "a.asm").
  do 2 eexists. split; [vm_compute; reflexivity|]. split; vm_compute; reflexivity.
Qed.

(** what holds: the source is kept when the output has another name *)
Theorem C41_source_kept_partial : forall init_ok env fs src out code text fs',
  main init_ok env fs src out = Ret (code, text, fs') -> src <> out ->
  fs_file fs' src = fs_file fs src.
Proof. intros. eapply C40_others_partial; eauto. Qed.

(** ** C42 *)
Theorem C42_no_source : forall env fs src out, fs_file fs src = None ->
  main true env fs src out = Ret (1, T "ERROR: " ++ src ++ T " could not be opened" ++ [ch_nl; ch_nl], fs).
Proof.
  intros env fs src out H. unfold main. cbn [negb]. rewrite H.
  unfold print_error. change (error_message ERROR_FILE_OPEN_FAIL src) with
    (Some (T "ERROR: " ++ src ++ T " could not be opened" ++ [ch_nl])).
  cbn [bind app]. rewrite <- !app_assoc. reflexivity.
Qed.

Theorem C42_no_output : forall env fs src out bytes, fs_file fs src = Some bytes ->
  fs_creatable fs out = false ->
  main true env fs src out = Ret (1, T "ERROR: assembled binary file could not be created" ++ [ch_nl; ch_nl], fs).
Proof.
  intros env fs src out bytes H C. unfold main. cbn [negb]. rewrite H, C. reflexivity.
Qed.
