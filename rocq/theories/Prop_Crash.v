(** Prop_Crash.v -- C60: a run that is killed; C61: calls on the output file that fail; C62: a source that cannot be
    read to its end. *)
From Verif Require Import Base Proof_Base Model_Opcode Model_Error Model_Lexer Model_SymbolTable
  Model_Parser Model_ForwardRef Model_Generator Model_Main Spec_Isa Spec_Text Spec_Asm Spec_Grammar Spec_Prog
  Proof_Run Proof_Source Proof_Prog Proof_Check Prop_Edit Prop_Again Model_Io Proof_Io Spec_Crash Proof_Crash.

(** ** main_io and main *)
Definition proc_sim (P : list Z -> list Z -> Prop) (fs : FileSystem) (out : text)
    (x : ProcResult * list FileSystem) (y : ProcResult) : Prop :=
  match x, y with
  | ((c, t, f), _), (c', t', f') => c = c' /\ t = t' /\
      ((f = fs /\ f' = fs) \/ exists b b', P b b' /\ f = fs_write (fs_write fs out []) out b /\ f' = fs_write (fs_write fs out []) out b')
  end.

Lemma main_sim : forall P reads fault (asm : (Z -> AllocEnv) -> text -> text -> M Outcome),
  (forall env file src, MR (outcome_sim P) (assemble_io reads fault env file src) (asm env file src)) ->
  forall init_ok env fs src out,
  MR (proc_sim P fs out) (main_io reads fault init_ok env fs src out)
     (if negb init_ok then t <- print_error None ERROR_MEMORY_ALLOCATION_FAIL None src (-1) ;; Ret (EXIT_FAILURE, t, fs)
      else match fs_file fs src with
      | None => t <- print_error None ERROR_FILE_OPEN_FAIL None src (-1) ;; Ret (EXIT_FAILURE, t, fs)
      | Some _ =>
        if negb (fs_creatable fs out) then t <- print_error None ERROR_BINARY_FILE_CREATION_FAIL None src (-1) ;; Ret (EXIT_FAILURE, t, fs)
        else
          let fs1 := fs_write fs out [] in
          let source := match fs_file fs1 src with Some c => map chr c | None => [] end in
          o <- asm env src source ;; Ret (exit_code o, stdout o, fs_write fs1 out (binary o))
      end).
Proof.
  intros P reads fault asm H init_ok env fs src out. unfold main_io. destruct init_ok; cbn [negb].
  2:{ apply MR_same. intro t. cbn. auto 6. }
  destruct (fs_file fs src). 2:{ apply MR_same. intro t. cbn. auto 6. }
  destruct (fs_creatable fs out); cbn [negb]. 2:{ apply MR_same. intro t. cbn. auto 6. }
  cbn zeta. eapply MR_bind; [apply H|]. intros x o (A & B & C). cbn. split; [exact A|]. split; [exact B|]. right. eauto.
Qed.

Lemma main_exact : forall init_ok env fs src out,
  MR (proc_sim eq fs out) (main_io all_reads no_fault init_ok env fs src out) (main init_ok env fs src out).
Proof. intros. apply (main_sim eq all_reads no_fault assemble). apply assemble_exact. Qed.

Lemma proc_eq : forall fs out r ms y, proc_sim eq fs out (r, ms) y -> r = y.
Proof. intros fs out [[c t] f] ms [[c' t'] f'] (-> & -> & [[-> ->]|(b & b' & -> & -> & ->)]); reflexivity. Qed.

(** a moment of the run: nothing changed yet, or the output file has been opened *)
Lemma moments : forall reads fault init_ok env fs src out r ms, main_io reads fault init_ok env fs src out = Ret (r, ms) ->
  forall m, In m ms -> m = fs \/
    (init_ok = true /\ fs_file fs src <> None /\ fs_creatable fs out = true /\
     exists x d, assemble_io reads fault env src
        (match fs_file (fs_write fs out []) src with Some c => map chr c | None => [] end) = Ret x /\
      In d (xi_seen x) /\ m = fs_write (fs_write fs out []) out d).
Proof.
  intros reads fault init_ok env fs src out r ms H m Hm. unfold main_io in H. destruct init_ok; cbn [negb] in H.
  2:{ destruct (print_error _ _ _ _ _); cbn in H; try discriminate. injection H as _ <-. destruct Hm as [<- |[]]. auto. }
  destruct (fs_file fs src) eqn:F.
  2:{ destruct (print_error _ _ _ _ _); cbn in H; try discriminate. injection H as _ <-. destruct Hm as [<- |[]]. auto. }
  destruct (fs_creatable fs out) eqn:C; cbn [negb] in H.
  2:{ destruct (print_error _ _ _ _ _); cbn in H; try discriminate. injection H as _ <-. destruct Hm as [<- |[]]. auto. }
  cbn zeta in H. destruct (assemble_io _ _ _ _ _) as [x| |] eqn:E; cbn [bind] in H; try discriminate. injection H as _ <-.
  apply in_app_or in Hm. destruct Hm as [Hm|[<- |[]]]; [|auto]. right. apply in_map_iff in Hm. destruct Hm as (d & <- & Hd).
  split; [reflexivity|]. split; [discriminate|]. split; [reflexivity|]. exists x, d. auto.
Qed.

(** ** C60.  Whenever the process is killed, and whatever calls fail, the other files are as they were *)
Theorem C60_other_files : forall reads fault init_ok env fs src out r ms m,
  main_io reads fault init_ok env fs src out = Ret (r, ms) -> In m ms ->
  (forall name, name <> out -> fs_file m name = fs_file fs name) /\ (forall name, fs_creatable m name = fs_creatable fs name).
Proof.
  intros reads fault init_ok env fs src out r ms m H Hm.
  destruct (moments _ _ _ _ _ _ _ _ _ H m Hm) as [-> |(_ & _ & _ & x & d & _ & _ & ->)]; [auto|].
  split; [|reflexivity]. intros name N. cbn. rewrite (text_eqb_other _ _ N). reflexivity.
Qed.

(** after a kill at any moment, running the assembler again gives what the run would have given *)
Theorem C60_rerun : forall reads fault init_ok env fs src out r ms m code text fs', src <> out ->
  main_io reads fault init_ok env fs src out = Ret (r, ms) -> In m ms ->
  main init_ok env fs src out = Ret (code, text, fs') ->
  exists fs'', main init_ok env m src out = Ret (code, text, fs'') /\
    (forall name, name <> out -> fs_file fs'' name = fs_file fs' name) /\
    (init_ok = true -> fs_file fs src <> None -> fs_creatable fs out = true -> fs_file fs'' out = fs_file fs' out).
Proof.
  intros reads fault init_ok env fs src out r ms m code text fs' N H Hm HM.
  destruct (C60_other_files _ _ _ _ _ _ _ _ _ m H Hm) as [O C].
  destruct (C53_only_output _ _ _ _ _ _ _ _ HM) as [O1 C1].
  destruct (C53_function_of_source init_ok env fs m src out code text fs') as (fs'' & H2 & D); auto.
  { symmetry. apply O. exact N. }
  destruct (C53_only_output _ _ _ _ _ _ _ _ H2) as [O2 C2].
  exists fs''. split; [exact H2|]. split; [intros name K; rewrite O2, O, O1 by exact K; reflexivity|].
  intros -> S K. unfold main in HM, H2. cbn [negb] in *. rewrite (O src N) in H2.
  destruct (fs_file fs src) eqn:E; [|congruence].
  rewrite C in H2. rewrite K in *. cbn [negb] in *. cbn zeta in *.
  assert (Es : fs_file (fs_write m out []) src = fs_file (fs_write fs out []) src).
  { cbn. rewrite (text_eqb_other _ _ N). apply O. exact N. }
  rewrite Es in H2. destruct (assemble _ _ _) as [o| |]; cbn [bind] in *; try discriminate.
  injection H2 as _ _ <-. injection HM as _ _ <-. cbn. rewrite text_eqb_same. reflexivity.
Qed.

(** what a killed run leaves: the old file, or an unfinished form of the binary *)
Theorem C60_unfinished : forall fs src out source p code text fs' ms m, src <> out ->
  fs_file fs src = Some source -> program_means (map chr source) p -> small (map chr source) -> monotone AsBuilt p ->
  main_io all_reads no_fault true no_failure fs src out = Ret ((code, text, fs'), ms) -> code = 0 -> In m ms ->
  fs_file m out = fs_file fs out \/
  exists whole part, fs_file fs' out = Some whole /\ fs_file m out = Some part /\ unfinished whole part.
Proof.
  intros fs src out source p code text fs' ms m N F HP HB HM H Hc Hm.
  destruct (moments _ _ _ _ _ _ _ _ _ H m Hm) as [-> |(_ & _ & K & x & d & Hx & Hd & ->)]; [auto|right].
  cbn [fs_write fs_file] in Hx. rewrite (text_eqb_other _ _ N), F in Hx.
  pose proof (main_exact true no_failure fs src out) as E. rewrite H in E.
  destruct (main true no_failure fs src out) as [y| |] eqn:Em; cbn [MR] in E; try contradiction. apply proc_eq in E. subst y.
  unfold main in Em. cbn [negb] in Em. rewrite F, K in Em. cbn [negb] in Em. cbn zeta in Em. cbn [fs_write fs_file] in Em.
  rewrite (text_eqb_other _ _ N), F in Em. fold (gaia src (map chr source)) in Em.
  destruct (gaia src (map chr source)) as [o| |] eqn:Eg; cbn [bind] in Em; try discriminate. injection Em as Ec _ <-.
  destruct (crash_seen src (map chr source) p o HP HB HM Eg) as (x' & Hx' & Fx); [congruence|].
  rewrite Hx in Hx'. injection Hx' as <-. rewrite Forall_forall in Fx.
  exists (binary o), d. cbn. rewrite text_eqb_same. auto.
Qed.

(** ** C61.  Neither the exit status nor the text depends on the calls on the output file that fail *)
Lemma assemble_any : forall reads fault env file src,
  MR (outcome_sim (fun _ _ => True)) (assemble_io reads fault env file src) (assemble_lines env file (lines_read reads 0 (chunks src))).
Proof. intros. apply (assemble_sim fault (fun _ _ => True)); auto. Qed.

Theorem C61_unnoticed_partial : forall fault init_ok env fs src out code text fs',
  main init_ok env fs src out = Ret (code, text, fs') ->
  exists fs'' ms, main_io all_reads fault init_ok env fs src out = Ret ((code, text, fs''), ms) /\
    (forall name, name <> out -> fs_file fs'' name = fs_file fs' name).
Proof.
  intros fault init_ok env fs src out code text fs' H.
  pose proof (main_sim (fun _ _ => True) all_reads fault assemble
    ltac:(intros; rewrite assemble_is_lines, <- (lines_read_all (chunks src0) 0); apply assemble_any) init_ok env fs src out) as E.
  fold (main init_ok env fs src out) in E.
  change (MR (proc_sim (fun _ _ => True) fs out) (main_io all_reads fault init_ok env fs src out) (main init_ok env fs src out)) in E.
  rewrite H in E. destruct (main_io _ _ _ _ _ _ _) as [[[[c t] f] ms]| |]; cbn [MR] in E; try contradiction.
  destruct E as (-> & -> & E). exists f, ms. split; [reflexivity|]. intros name N.
  destruct E as [[-> ->]|(b & b' & _ & -> & ->)]; [reflexivity|]. cbn. rewrite (text_eqb_other _ _ N). reflexivity.
Qed.

(** when no call fails, the file is the binary *)
Theorem C61_no_fault : forall init_ok env fs src out r,
  main init_ok env fs src out = Ret r <-> exists ms, main_io all_reads no_fault init_ok env fs src out = Ret (r, ms).
Proof.
  intros init_ok env fs src out r. pose proof (main_exact init_ok env fs src out) as E. split.
  - intro H. rewrite H in E. destruct (main_io _ _ _ _ _ _ _) as [[r' ms]| |]; cbn [MR] in E; try contradiction.
    apply proc_eq in E. subst r'. eauto.
  - intros (ms & H). rewrite H in E. destruct (main _ _ _ _ _) as [y| |]; cbn [MR] in E; try contradiction.
    apply proc_eq in E. subst y. reflexivity.
Qed.

(** exit status 0 does not mean that the binary was written: on a full disk nothing is stored *)
Definition disk (source : text) : FileSystem :=
  mkFS (fun n => if text_eqb n (T "a.asm") then Some (map code source) else if text_eqb n (T "b.bin") then Some [1;2;3] else None) (fun _ => true).
Definition full_disk : Faults := fun _ => Some (mkOFile [] 0).

Theorem C61_refuted : exists text fs' fs'' ms, main true no_failure (disk (T "LDA #$10")) (T "a.asm") (T "b.bin") = Ret (0, text, fs') /\
  fs_file fs' (T "b.bin") = Some [169; 16] /\
  main_io all_reads full_disk true no_failure (disk (T "LDA #$10")) (T "a.asm") (T "b.bin") = Ret ((0, text, fs''), ms) /\
  fs_file fs'' (T "b.bin") = Some [].
Proof. do 4 eexists. do 3 (split; [vm_compute; reflexivity|]). vm_compute. reflexivity. Qed.

(** ** C62.  A read that fails is taken for the end of the source *)
Lemma fgets_front : forall n s l rest rest', fgets n s = (l, rest) -> (rest = [] -> rest' = []) -> fgets n (l ++ rest') = (l, rest').
Proof.
  induction n as [|n IH]; intros s l rest rest' H K.
  - cbn in H. injection H as <- <-. reflexivity.
  - destruct s as [|c s]. { cbn in H. injection H as <- <-. rewrite (K eq_refl). reflexivity. }
    cbn [fgets] in H. destruct (Ascii.eqb c ch_nl) eqn:E.
    + injection H as <- <-. cbn [app fgets]. rewrite E. reflexivity.
    + destruct (fgets n s) as [l' r'] eqn:F. injection H as <- <-. cbn [app fgets]. rewrite E, (IH _ _ _ _ F K). reflexivity.
Qed.

Lemma fgets_some : forall n c s l rest, fgets (S n) (c :: s) = (l, rest) -> l <> [].
Proof.
  intros n c s l rest H. cbn [fgets] in H. destruct (Ascii.eqb c ch_nl); [injection H as <- _; discriminate|].
  destruct (fgets n s). injection H as <- _. discriminate.
Qed.

Lemma chunks_front : forall k s, chunks (List.concat (firstn k (chunks s))) = firstn k (chunks s).
Proof.
  induction k as [|k IH]; intro s; [reflexivity|]. destruct s as [|c s]; [reflexivity|].
  destruct (fgets 127 (c :: s)) as [l rest] eqn:F. rewrite (chunks_cons (c :: s) l rest) by (exact F || discriminate). cbn [firstn List.concat].
  rewrite (chunks_cons (l ++ List.concat (firstn k (chunks rest))) l (List.concat (firstn k (chunks rest)))).
  - rewrite IH. reflexivity.
  - pose proof (fgets_some _ _ _ _ _ F) as L. intro K. apply app_eq_nil in K. tauto.
  - eapply fgets_front; [exact F|]. intros ->. rewrite firstn_nil. reflexivity.
Qed.

Lemma lines_read_first : forall k reads lines j, (forall i, (i < k)%nat -> reads (j + i)%nat = true) -> reads (j + k)%nat = false ->
  lines_read reads j lines = firstn k lines.
Proof.
  induction k as [|k IH]; intros reads lines j A B.
  - rewrite Nat.add_0_r in B. destruct lines; cbn; [reflexivity|]. rewrite B. reflexivity.
  - destruct lines as [|l lines]; [reflexivity|]. cbn [lines_read firstn].
    pose proof (A 0%nat ltac:(lia)) as A0. rewrite Nat.add_0_r in A0. rewrite A0. f_equal. apply IH.
    + intros i Hi. replace (S j + i)%nat with (j + S i)%nat by lia. apply A. lia.
    + replace (S j + k)%nat with (j + S k)%nat by lia. exact B.
Qed.

(** the results of the first [k] calls of fgets, one after the other, are the beginning of the source *)
Theorem C62_read_part : forall k source, exists rest, source = List.concat (firstn k (chunks source)) ++ rest.
Proof. intros k source. exists (List.concat (skipn k (chunks source))). rewrite <- List.concat_app, firstn_skipn. symmetry. apply chunks_concat. Qed.

(** every call of fgets works until the k-th fails: the result is that of a source with the first k reads only *)
Theorem C62_truncated_partial : forall k reads init_ok env fs src out bytes bytes' r, src <> out ->
  (forall i, (i < k)%nat -> reads i = true) -> reads k = false ->
  fs_file fs src = Some bytes -> map chr bytes' = List.concat (firstn k (chunks (map chr bytes))) ->
  main init_ok env (fs_write fs src bytes') src out = Ret r ->
  exists code text fs1 fs2 ms, r = (code, text, fs1) /\
    main_io reads no_fault init_ok env fs src out = Ret ((code, text, fs2), ms) /\
    (forall name, name <> src -> fs_file fs2 name = fs_file fs1 name).
Proof.
  intros k reads init_ok env fs src out bytes bytes' r N A B F E H.
  assert (Sim : forall env file s, MR (outcome_sim eq) (assemble_io reads no_fault env file s) (assemble_lines env file (firstn k (chunks s)))).
  { intros env0 file s. rewrite <- (lines_read_first k reads (chunks s) 0 A B).
    apply (assemble_sim no_fault exact_file eq); auto using exact_put, exact_seek; [|reflexivity]. intros f w ->. reflexivity. }
  pose proof (main_sim eq reads no_fault (fun env file s => assemble_lines env file (firstn k (chunks s))) Sim init_ok env fs src out) as S.
  destruct r as [[code text] fs1]. exists code, text, fs1. unfold main in H. destruct init_ok; cbn [negb] in *.
  2:{ destruct (print_error _ _ _ _ _) as [t| |]; cbn [bind] in *; try discriminate. injection H as <- <- <-.
      destruct (main_io _ _ _ _ _ _ _) as [[[[c t'] f] ms]| |]; cbn [MR] in S; try contradiction.
      destruct S as (-> & -> & [[-> _]|(b & b' & <- & -> & X)]).
      - exists fs, ms. split; [reflexivity|]. split; [reflexivity|]. intros name K. cbn. rewrite (text_eqb_other _ _ K). reflexivity.
      - exists (fs_write (fs_write fs out []) out b), ms. split; [reflexivity|]. split; [reflexivity|]. intros name K. rewrite <- X. cbn. rewrite (text_eqb_other _ _ K). reflexivity. }
  rewrite F in S. cbn [fs_write fs_file fs_creatable] in H. rewrite text_eqb_same in H.
  destruct (fs_creatable fs out); cbn [negb] in *.
  2:{ destruct (print_error _ _ _ _ _) as [t| |]; cbn [bind] in *; try discriminate. injection H as <- <- <-.
      destruct (main_io _ _ _ _ _ _ _) as [[[[c t'] f] ms]| |]; cbn [MR] in S; try contradiction.
      destruct S as (-> & -> & [[-> _]|(b & b' & <- & -> & X)]).
      - exists fs, ms. split; [reflexivity|]. split; [reflexivity|]. intros name K. cbn. rewrite (text_eqb_other _ _ K). reflexivity.
      - exists (fs_write (fs_write fs out []) out b), ms. split; [reflexivity|]. split; [reflexivity|]. intros name K. rewrite <- X. cbn. rewrite (text_eqb_other _ _ K). reflexivity. }
  cbn zeta in *. cbn [fs_write fs_file] in S. rewrite (text_eqb_other _ _ N), ?text_eqb_same in H. rewrite (text_eqb_other _ _ N), F in S.
  rewrite assemble_is_lines, E, chunks_front in H.
  destruct (assemble_lines _ _ _) as [o| |]; cbn [bind] in *; try discriminate. injection H as <- <- <-.
  destruct (main_io _ _ _ _ _ _ _) as [[[[c t'] f] ms]| |]; cbn [MR] in S; try contradiction.
  destruct S as (-> & -> & S). exists f, ms. split; [reflexivity|]. split; [reflexivity|]. intros name K.
  destruct S as [[-> X]|(b & b' & <- & -> & X)].
  - rewrite <- X. cbn. rewrite !(text_eqb_other _ _ K). destruct (text_eqb name out); reflexivity.
  - pose proof (f_equal (fun g => fs_file g name) X) as Y. cbn in Y |- *. rewrite !(text_eqb_other _ _ K) in *.
    destruct (text_eqb name out); [symmetry; exact Y|reflexivity].
Qed.

(** a source that cannot be read completely is not reported: here the second call of fgets fails, and here the first,
    which is also what happens when the source is a directory *)
Definition fails_at (n : nat) : Reads := fun k => negb (Nat.eqb k n).
Definition two_lines : text := T "LDA #$10" ++ [ch_nl] ++ T "LDX #$20" ++ [ch_nl].

Theorem C62_refuted : exists t t1 t0 fs' fs1 fs0 ms1 ms0,
  main true no_failure (disk two_lines) (T "a.asm") (T "b.bin") = Ret (0, t, fs') /\
  fs_file fs' (T "b.bin") = Some [169; 16; 162; 32] /\
  main_io (fails_at 1%nat) no_fault true no_failure (disk two_lines) (T "a.asm") (T "b.bin") = Ret ((0, t1, fs1), ms1) /\
  fs_file fs1 (T "b.bin") = Some [169; 16] /\
  main_io (fails_at 0%nat) no_fault true no_failure (disk two_lines) (T "a.asm") (T "b.bin") = Ret ((0, t0, fs0), ms0) /\
  fs_file fs0 (T "b.bin") = Some [].
Proof. do 8 eexists. do 5 (split; [vm_compute; reflexivity|]). vm_compute. reflexivity. Qed.

(** ** Examples.  A program with a forward jump: its hypotheses hold, its run has an unfinished moment (the jump has its
    opcode but not yet its address), and the old output file is gone at once *)
Definition jump_ahead : text := join [T " jmp L"; T "L nop"].
Definition content (m : FileSystem) : option (list Z) := fs_file m (T "b.bin").

Example C60_case : exists p text fs' ms,
  fs_file (disk jump_ahead) (T "a.asm") = Some (map code jump_ahead) /\
  program_means (map chr (map code jump_ahead)) p /\ small (map chr (map code jump_ahead)) /\ monotone AsBuilt p /\
  main_io all_reads no_fault true no_failure (disk jump_ahead) (T "a.asm") (T "b.bin") = Ret ((0, text, fs'), ms) /\
  content fs' = Some [76; 3; 0; 234] /\
  In (Some [76; 0; 0]) (map content ms) /\ In (Some []) (map content ms) /\ In (Some [1; 2; 3]) (map content ms).
Proof.
  destruct (statements [T " jmp L"; T "L nop"]) as [p|] eqn:E; [|vm_compute in E; discriminate]. vm_compute in E. injection E as <-.
  do 4 eexists. split; [reflexivity|]. split; [replace (map chr (map code jump_ahead)) with jump_ahead by (vm_compute; reflexivity); apply means_lines; vm_compute; reflexivity|].
  split; [vm_compute; reflexivity|]. split; [vm_compute; repeat split; discriminate|].
  split; [vm_compute; reflexivity|]. split; [vm_compute; reflexivity|]. vm_compute. repeat split; repeat (try (left; reflexivity); right).
Qed.

(** the output is not replaced in one step *)
Theorem C60_not_atomic : exists text fs' ms m,
  main_io all_reads no_fault true no_failure (disk jump_ahead) (T "a.asm") (T "b.bin") = Ret ((0, text, fs'), ms) /\ In m ms /\
  content (disk jump_ahead) = Some [1; 2; 3] /\ content fs' = Some [76; 3; 0; 234] /\ content m = Some [].
Proof.
  destruct C60_case as (p & text & fs' & ms & _ & _ & _ & _ & H & F & _ & K & _).
  apply in_map_iff in K. destruct K as (m & Em & Im). exists text, fs', ms, m. auto.
Qed.

Example C62_case : exists text fs1 fs2 ms,
  (forall i, (i < 1)%nat -> fails_at 1%nat i = true) /\ fails_at 1%nat 1%nat = false /\
  map chr (map code (T "LDA #$10" ++ [ch_nl])) = List.concat (firstn 1%nat (chunks (map chr (map code two_lines)))) /\
  main true no_failure (fs_write (disk two_lines) (T "a.asm") (map code (T "LDA #$10" ++ [ch_nl]))) (T "a.asm") (T "b.bin") = Ret (0, text, fs1) /\
  main_io (fails_at 1%nat) no_fault true no_failure (disk two_lines) (T "a.asm") (T "b.bin") = Ret ((0, text, fs2), ms) /\
  content fs1 = content fs2.
Proof.
  do 4 eexists. split. { intros i Hi. assert (i = 0%nat) as -> by lia. reflexivity. }
  do 4 (split; [vm_compute; reflexivity|]). vm_compute. reflexivity.
Qed.
