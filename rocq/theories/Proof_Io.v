(** Proof_Io.v -- Model_Io does what Model_Main does, whatever calls on the output file fail. *)
From Verif Require Import Base Proof_Base Model_Opcode Model_Error Model_Lexer Model_SymbolTable
  Model_Parser Model_ForwardRef Model_Generator Model_Main Model_Io.

(** two computations with related results *)
Definition MR {A B} (P : A -> B -> Prop) (x : M A) (y : M B) : Prop :=
  match x, y with
  | Ret a, Ret b => P a b
  | Undef u, Undef v => u = v
  | Diverge, Diverge => True
  | _, _ => False
  end.

Lemma MR_bind : forall A B C D (P : A -> B -> Prop) (Q : C -> D -> Prop) x y k k',
  MR P x y -> (forall a b, P a b -> MR Q (k a) (k' b)) -> MR Q (bind x k) (bind y k').
Proof. intros A B C D P Q [a| |] [b| |] k k' H K; cbn in *; try contradiction; auto. Qed.

Lemma MR_same : forall A C D (Q : C -> D -> Prop) (x : M A) k k',
  (forall a, MR Q (k a) (k' a)) -> MR Q (bind x k) (bind x k').
Proof. intros A C D Q [a| |] k k' K; cbn; auto. Qed.

Definition with_out (st : St) (f : OFile) : St :=
  mkSt (st_symtab st) (st_unresolved st) (st_pc st) (st_line_num st) (st_written st) (st_total st) f
       (st_lexer st) (st_tk st) (st_instr st) (st_stdout st).

Section Sim.
Variable fault : Faults.
Variable R : OFile -> IoFile -> Prop.
Hypothesis Rput : forall c f w, R f w -> R (fputc c f) (snd (fputc_io fault c w)).
Hypothesis Rseek : forall p f w, R f w -> R (fseek f p) (snd (fseek_io fault p w)).

Definition state_sim (s : StIo) (st : St) : Prop := exists f, st = with_out (si_st s) f /\ R f (si_io s).

Definition line_sim (r : LineIo) (r' : LineRes) : Prop :=
  match r, r' with
  | NextIo s, Next st | FinishIo s, Finish st | AbortIo s, Abort st => state_sim s st
  | _, _ => False
  end.

Definition code_sim (x : Z * IoFile * Instruction) (y : Z * OFile * Instruction) : Prop :=
  match x, y with (n, w, i), (m, f, j) => n = m /\ i = j /\ R f w end.

Definition gen_sim (x : Z * IoFile * Lexer * Instruction * text) (y : Z * OFile * Lexer * Instruction * text) : Prop :=
  match x, y with (n, w', l, j, t), (n', f', l', j', t') => n = n' /\ l = l' /\ j = j' /\ t = t' /\ R f' w' end.

Lemma generate_sim : forall f w i o pc, R f w -> code_sim (generate_code_io fault w i o pc) (generate_code f i o pc).
Proof.
  intros f w i o pc H. unfold generate_code_io, generate_code.
  pose proof (Rseek pc _ _ H) as H0. destruct (fseek_io fault pc w) as [r0 w0]. cbn in H0.
  pose proof (Rput (i_opcode (set_opcode i (get_opcode i))) _ _ H0) as H1.
  destruct (fputc_io fault (i_opcode (set_opcode i (get_opcode i))) w0) as [r1 w1]. cbn [snd] in H1.
  destruct o as [t|]; [|repeat split; exact H1]. destruct (ty_eqb (tk_type t) TOKEN_ACCUMULATOR); [repeat split; exact H1|].
  pose proof (Rput (Z.land (tk_value t) 0xFF) _ _ H1) as H2. destruct (fputc_io fault (Z.land (tk_value t) 0xFF) w1) as [r2 w2]. cbn [snd] in H2.
  destruct (negb _); [|repeat split; exact H2].
  pose proof (Rput (Z.shiftr (tk_value t) 8) _ _ H2) as H3. destruct (fputc_io fault (Z.shiftr (tk_value t) 8) w2) as [r3 w3].
  repeat split; exact H3.
Qed.

Lemma label_ref_sim : forall f w lx i lab os tab pc, R f w ->
  MR gen_sim
     (resolve_label_ref_io fault w lx i lab os tab pc) (resolve_label_ref f lx i lab os tab pc).
Proof.
  intros f w lx i lab os tab pc H. unfold resolve_label_ref_io, resolve_label_ref. destruct lab as [k|].
  2:{ apply MR_same. intros [[c l] o]. cbn. auto. }
  apply MR_same. intro tok. apply MR_same. intro dest. destruct (os =? BRANCH_OPERAND).
  - apply MR_same. intro off. destruct (off =? ERROR_TOO_BIG_OFFSET).
    + apply MR_same. intro out. cbn. auto.
    + apply MR_same. intro l1. apply MR_same. intro t1.
      pose proof (generate_sim f w i (Some t1) pc H) as G. destruct (generate_code_io _ _ _ _ _) as [[n w'] j], (generate_code _ _ _ _) as [[n' f'] j'].
      destruct G as (-> & -> & G). cbn. auto.
  - destruct (os =? JUMP_OPERAND).
    + apply MR_same. intro l1. apply MR_same. intro t1.
      pose proof (generate_sim f w i (Some t1) pc H) as G. destruct (generate_code_io _ _ _ _ _) as [[n w'] j], (generate_code _ _ _ _) as [[n' f'] j'].
      destruct G as (-> & -> & G). cbn. auto.
    + apply MR_same. intros [[c l] o]. cbn. auto.
Qed.

Lemma forward_sim : forall f w ref lx dest, R f w ->
  MR (fun x y => match x, y with (n, w', t), (n', f', t') => n = n' /\ t = t' /\ R f' w' end)
     (resolve_forward_ref_io fault w ref lx dest) (resolve_forward_ref f ref lx dest).
Proof.
  intros f w ref lx dest H. unfold resolve_forward_ref_io, resolve_forward_ref.
  pose proof (Rseek (fr_pc ref) _ _ H) as H0. destruct (fseek_io fault (fr_pc ref) w) as [r0 w0]. cbn in H0.
  pose proof (Rput (get_opcode (fr_instr ref)) _ _ H0) as H1. destruct (fputc_io fault (get_opcode (fr_instr ref)) w0) as [r1 w1]. cbn [snd] in H1.
  destruct (fr_operand_status ref =? BRANCH_FORWARD_REFERENCE).
  - apply MR_same. intro off. destruct (off =? ERROR_TOO_BIG_OFFSET); [apply MR_same; intro; cbn; auto|].
    destruct (negb _); [|apply MR_same; intros [[c l] o]; cbn; auto].
    pose proof (Rput (Z.land off 0xFF) _ _ H1) as H2. destruct (fputc_io fault (Z.land off 0xFF) w1) as [r2 w2]. cbn. auto.
  - destruct (fr_operand_status ref =? JUMP_FORWARD_REFERENCE); [|apply MR_same; intros [[c l] o]; cbn; auto].
    destruct (negb _); [|apply MR_same; intros [[c l] o]; cbn; auto].
    pose proof (Rput (Z.land dest 0xFF) _ _ H1) as H2. destruct (fputc_io fault (Z.land dest 0xFF) w1) as [r2 w2]. cbn [snd] in H2.
    pose proof (Rput (Z.shiftr dest 8) _ _ H2) as H3. destruct (fputc_io fault (Z.shiftr dest 8) w2) as [r3 w3]. cbn. auto.
Qed.

Lemma instruction_sim : forall env b st f w, R f w ->
  MR line_sim (process_instruction_io fault env b st w) (process_instruction env b (with_out st f)).
Proof.
  intros env b st f w H. unfold process_instruction_io, process_instruction. cbn [with_out st_lexer st_instr st_symtab st_unresolved st_pc st_line_num st_written st_total st_tk st_stdout st_out].
  apply MR_same. intro operand. apply MR_same. intros [[os l1] out1].
  destruct (IS_ERROR os). { cbn. exists f. split; [reflexivity|exact H]. }
  apply MR_same. intros [[rc i2] out2].
  set (written1 := if os =? BRANCH_FORWARD_REFERENCE then 2 else if os =? JUMP_FORWARD_REFERENCE then 3 else st_written st).
  eapply MR_bind with (P := fun a b => match a, b with None, None => True | Some (u, w'), Some (u', f') => u = u' /\ R f' w' | _, _ => False end).
  - destruct (rc =? FORWARD_REFERENCE).
    + destruct operand as [k|]; [|reflexivity]. apply MR_same. intro tok. apply MR_same. intros [ref|]; [|exact I].
      apply MR_same. intros [code u]. destruct (IS_ERROR code); [exact I|].
      pose proof (Rput 0 _ _ H) as H1. destruct (fputc_io fault 0 w) as [r1 w1]. cbn [snd] in H1.
      pose proof (Rput 0 _ _ H1) as H2. destruct (fputc_io fault 0 w1) as [r2 w2]. cbn [snd] in H2.
      cbn. split; [reflexivity|]. destruct (written1 =? 3); auto.
    + destruct (IS_ERROR rc); cbn; auto.
  - intros [[u w2]|] [[u' f2]|] K; try contradiction. 2:{ cbn. exists f. split; [reflexivity|exact H]. }
    destruct K as [<- K].
    eapply MR_bind with (P := gen_sim).
    + destruct ((os =? BRANCH_OPERAND) || (os =? JUMP_OPERAND)); [apply label_ref_sim; exact K|].
      apply MR_same. intro ot. pose proof (generate_sim f2 w2 i2 ot (st_pc st) K) as G.
      destruct (generate_code_io _ _ _ _ _) as [[n w'] j], (generate_code _ _ _ _) as [[n' f'] j']. destruct G as (-> & -> & G). cbn. auto.
    + intros [[[[n w'] l] j] t] [[[[n' f'] l'] j'] t'] (<- & <- & <- & <- & G).
      destruct (IS_ERROR n). { cbn. exists f'. split; [reflexivity|exact G]. }
      apply MR_same. intro ln. apply MR_same. intro pc. apply MR_same. intro tot. cbn. exists f'. split; [reflexivity|exact G].
Qed.

Lemma line_step_sim : forall env b s st, state_sim s st -> MR line_sim (process_line_io fault env b s) (process_line env b st).
Proof.
  intros env b [st0 w] st (f & -> & H). cbn [si_st si_io] in *. unfold process_line_io, process_line. cbn [si_st si_io with_out st_lexer st_instr st_symtab st_unresolved st_pc st_line_num st_written st_total st_tk st_stdout st_out].
  apply MR_same. intros [[[[rc l1] t1] i1] o1]. destruct (IS_ERROR rc). { cbn. exists f. split; [reflexivity|exact H]. }
  apply MR_same. intros [[rc2 l2] o2]. destruct (IS_ERROR rc2). { cbn. exists f. split; [reflexivity|exact H]. }
  apply MR_same. intro first.
  assert (Rest : forall lx tab pc o, MR line_sim
    (let st' := mkSt tab (st_unresolved st0) pc (st_line_num st0) (st_written st0) (st_total st0) (st_out st0) lx t1 i1 (st_stdout st0 ++ o) in
     match i_mnemonic i1 with
     | NULL_MNEMONIC =>
          line_num <- int_of (st_line_num st' + 1) ;;
          Ret (NextIo (mkStIo (mkSt (st_symtab st') (st_unresolved st') (st_pc st') line_num
                                    (st_written st') (st_total st') (st_out st') (st_lexer st')
                                    (st_tk st') (st_instr st') (st_stdout st')) w))
     | _ => process_instruction_io fault env b st' w
     end)
    (let st' := mkSt tab (st_unresolved st0) pc (st_line_num st0) (st_written st0) (st_total st0) f lx t1 i1 (st_stdout st0 ++ o) in
     match i_mnemonic i1 with
     | NULL_MNEMONIC =>
          line_num <- int_of (st_line_num st' + 1) ;;
          Ret (Next (mkSt (st_symtab st') (st_unresolved st') (st_pc st') line_num
                          (st_written st') (st_total st') (st_out st') (st_lexer st')
                          (st_tk st') (st_instr st') (st_stdout st')))
     | _ => process_instruction env b st'
     end)).
  { intros lx tab pc o. cbn zeta.
    destruct (i_mnemonic i1); try (apply (instruction_sim env b (mkSt tab (st_unresolved st0) pc (st_line_num st0) (st_written st0) (st_total st0) (st_out st0) lx t1 i1 (st_stdout st0 ++ o)) f w H)).
    apply MR_same. intro n. cbn. exists f. split; [reflexivity|exact H]. }
  destruct (tk_type first); try (apply Rest).
  - apply MR_same. intros [[[c l3] s3] o3]. destruct (IS_ERROR c). { cbn. exists f. split; [reflexivity|exact H]. } apply Rest.
  - apply MR_same. intros [[[c l3] s3] o3]. destruct (IS_ERROR c). { cbn. exists f. split; [reflexivity|exact H]. } apply Rest.
  - cbn. exists f. split; [reflexivity|exact H].
Qed.

(** the calls of fgets that work: how many lines are read *)
Fixpoint lines_read (reads : Reads) (k : nat) (lines : list text) : list text :=
  match lines with
  | [] => []
  | l :: lines' => if reads k then l :: lines_read reads (S k) lines' else []
  end.

Lemma run_lines_sim : forall reads env lines k s st, state_sim s st ->
  MR line_sim (run_lines_io reads fault env k lines s) (run_lines env (lines_read reads k lines) st).
Proof.
  intros reads env. induction lines as [|l lines IH]; intros k s st H; cbn [run_lines_io lines_read].
  - destruct (reads k); cbn; exact H.
  - destruct (reads k); [|cbn; exact H]. cbn [run_lines].
    assert (E : st_line_num (si_st s) = st_line_num st) by (destruct H as (f & -> & _); reflexivity). rewrite E.
    eapply MR_bind; [apply line_step_sim; exact H|]. intros [s'|s'|s'] [st'|st'|st'] K; try contradiction; try exact K.
    apply IH. exact K.
Qed.

Lemma resolve_all_sim : forall file n i s st, state_sim s st ->
  MR line_sim (resolve_all_io fault file n i s) (resolve_all file n i st).
Proof.
  intros file. induction n as [|n IH]; intros i s st H; cbn [resolve_all_io resolve_all]; [exact H|].
  destruct H as (f & -> & H). destruct s as [st0 w]. cbn [si_st si_io] in *. cbn [with_out st_unresolved st_symtab st_lexer st_out].
  apply MR_same. intros [ref|]; [|reflexivity]. apply MR_same. intro dest. destruct (IS_ERROR dest).
  - apply MR_same. intro out. exists f. split; [reflexivity|exact H].
  - eapply MR_bind; [apply forward_sim; exact H|]. intros [[n1 w1] t1] [[n2 f2] t2] (<- & <- & K).
    assert (S : state_sim (mkStIo (st_set_out st0 (st_out st0) t1) w1) (st_set_out (with_out st0 f) f2 t1)).
    { exists f2. split; [reflexivity|exact K]. }
    destruct (IS_ERROR n1); [exact S|]. apply IH. exact S.
Qed.
End Sim.

(** the whole run *)
Definition outcome_sim (P : list Z -> list Z -> Prop) (x : OutcomeIo) (o : Outcome) : Prop :=
  xi_code x = exit_code o /\ xi_stdout x = stdout o /\ P (xi_binary x) (binary o).

(** Model_Main.assemble on given results of fgets *)
Definition assemble_lines (env : Z -> AllocEnv) (file : text) (lines : list text) : M Outcome :=
  r <- run_lines env lines (init_state file) ;;
  match r with
  | Abort st => Ret (mkOutcome EXIT_FAILURE (st_stdout st) (of_data (st_out st)))
  | Next st | Finish st =>
    r2 <- resolve_all file (Z.to_nat (un_curr (st_unresolved st))) 0 st ;;
    match r2 with
    | Abort st2 => Ret (mkOutcome EXIT_FAILURE (st_stdout st2) (of_data (st_out st2)))
    | Next st2 | Finish st2 =>
      Ret (mkOutcome EXIT_SUCCESS (st_stdout st2 ++ summary (st_total st2) (tab_count (st_symtab st2))) (of_data (st_out st2)))
    end
  end.

Lemma assemble_sim : forall fault (R : OFile -> IoFile -> Prop) (P : list Z -> list Z -> Prop),
  (forall c f w, R f w -> R (fputc c f) (snd (fputc_io fault c w))) ->
  (forall p f w, R f w -> R (fseek f p) (snd (fseek_io fault p w))) ->
  (forall f w, R f w -> P (of_data (io_file (snd (fclose_io fault w)))) (of_data f)) ->
  R (mkOFile [] 0) init_io ->
  forall reads env file src,
  MR (outcome_sim P) (assemble_io reads fault env file src) (assemble_lines env file (lines_read reads 0 (chunks src))).
Proof.
  intros fault R P Rput Rseek Rclose R0 reads env file src. unfold assemble_io, assemble_lines.
  assert (Ex : forall code out f w, R f w -> outcome_sim P (exit_io fault code out w) (mkOutcome code out (of_data f))).
  { intros code out f w H. apply Rclose in H. unfold exit_io. destruct (fclose_io fault w) as [z w1]. repeat split. exact H. }
  eapply MR_bind. { apply (run_lines_sim fault R Rput Rseek). exists (mkOFile [] 0). split; [reflexivity|exact R0]. }
  assert (Fin : forall s st, state_sim R s st -> MR (outcome_sim P)
    (r2 <- resolve_all_io fault file (Z.to_nat (un_curr (st_unresolved (si_st s)))) 0 s ;;
     match r2 with
     | AbortIo s2 => Ret (exit_io fault EXIT_FAILURE (st_stdout (si_st s2)) (si_io s2))
     | NextIo s2 | FinishIo s2 =>
       Ret (exit_io fault EXIT_SUCCESS
             (st_stdout (si_st s2) ++ summary (st_total (si_st s2)) (tab_count (st_symtab (si_st s2)))) (si_io s2))
     end)
    (r2 <- resolve_all file (Z.to_nat (un_curr (st_unresolved st))) 0 st ;;
     match r2 with
     | Abort st2 => Ret (mkOutcome EXIT_FAILURE (st_stdout st2) (of_data (st_out st2)))
     | Next st2 | Finish st2 =>
       Ret (mkOutcome EXIT_SUCCESS (st_stdout st2 ++ summary (st_total st2) (tab_count (st_symtab st2))) (of_data (st_out st2)))
     end)).
  { intros s st H. assert (E : st_unresolved (si_st s) = st_unresolved st) by (destruct H as (f & -> & _); reflexivity). rewrite E.
    eapply MR_bind; [apply (resolve_all_sim fault R Rput Rseek); exact H|].
    intros [s'|s'|s'] [st'|st'|st'] K; try contradiction; destruct K as (f & -> & K); cbn; apply Ex; exact K. }
  intros [s|s|s] [st|st|st] K; try contradiction; try (apply Fin; exact K).
  destruct K as (f & -> & K). cbn. apply Ex. exact K.
Qed.

Lemma lines_read_all : forall lines k, lines_read all_reads k lines = lines.
Proof. induction lines as [|l lines IH]; intro k; [reflexivity|]. cbn. rewrite IH. reflexivity. Qed.

Lemma assemble_is_lines : forall env file src, assemble env file src = assemble_lines env file (chunks src).
Proof. reflexivity. Qed.
