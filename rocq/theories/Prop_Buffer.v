(** Prop_Buffer.v -- C60: the buffer of the C library. *)
From Verif Require Import Base Proof_Base Model_Opcode Model_Error Model_Lexer Model_SymbolTable
  Model_Parser Model_ForwardRef Model_Generator Model_Main Model_Io Proof_Io Prop_Again Spec_Crash Proof_Crash Prop_Crash Spec_Buffer.

(** the calls without a buffer *)
Definition call1 (f : OFile) (c : IoCall) : OFile :=
  match c with CallPut b => fputc b f | CallSeek p => fseek f p | CallClose => f end.
Definition calls (cs : list IoCall) : OFile := fold_left call1 cs (mkOFile [] 0).

Lemma calls_app : forall cs c, calls (cs ++ [c]) = call1 (calls cs) c.
Proof. intros. unfold calls. rewrite fold_left_app. reflexivity. Qed.

Lemma write_put : forall d pos b, put_byte d pos b (write_byte d (Z.to_nat pos) b).
Proof.
  intros d pos b. unfold put_byte. generalize (Z.to_nat pos) as n. clear pos. cbn zeta.
  intro n. revert d. induction n as [|n IH]; intros [|x d]; cbn [write_byte].
  - split; [reflexivity|]. split; [reflexivity|]. intros [|[|i]] H; try reflexivity. congruence.
  - split; [cbn; lia|]. split; [reflexivity|]. intros [|i] H; [congruence|reflexivity].
  - destruct (IH []) as (L & N & O). split; [cbn [List.length]; rewrite L; cbn; lia|]. split; [exact N|].
    intros [|i] H; [reflexivity|]. cbn [nth]. rewrite O by congruence. destruct i; reflexivity.
  - destruct (IH d) as (L & N & O). split; [cbn [List.length]; rewrite L; cbn; lia|]. split; [exact N|].
    intros [|i] H; [reflexivity|]. cbn [nth]. apply O. congruence.
Qed.

Lemma put_unique : forall d pos b d1 d2, put_byte d pos b d1 -> put_byte d pos b d2 -> d1 = d2.
Proof.
  intros d pos b d1 d2 (L1 & N1 & O1) (L2 & N2 & O2). apply nth_ext with (d := 0) (d' := 0); [congruence|]. intros i _.
  destruct (Nat.eq_dec i (Z.to_nat pos)) as [->|H]; [congruence|]. rewrite O1, O2 by exact H. reflexivity.
Qed.

(** what is in the file is the work of the calls in front of the bytes in the buffer *)
Lemma through_calls : forall cs d pos buf, through cs d pos buf ->
  exists front cs', cs = front ++ map CallPut cs' /\ buf = map (fun c => c mod 256) cs' /\ calls front = mkOFile d pos.
Proof.
  induction 1 as [|cs d pos buf c H IH|cs d pos b buf d' H IH P|cs d pos p H IH|cs d pos H IH].
  - exists [], []. split; [reflexivity|]. split; reflexivity.
  - destruct IH as (front & cs' & -> & -> & E). exists front, (cs' ++ [c]). rewrite !map_app, app_assoc. split; [reflexivity|]. split; [reflexivity|exact E].
  - destruct IH as (front & cs' & -> & B & E). destruct cs' as [|c cs']; [discriminate|]. injection B as -> ->.
    exists (front ++ [CallPut c]), cs'. split; [cbn [map]; rewrite <- app_assoc; reflexivity|]. split; [reflexivity|].
    rewrite calls_app, E. cbn [call1]. unfold fputc. cbn [of_data of_pos]. f_equal. apply (put_unique d pos (c mod 256)); [apply write_put|exact P].
  - destruct IH as (front & [|c cs'] & -> & B & E); [|discriminate]. cbn [map]. rewrite app_nil_r in *. exists (front ++ [CallSeek p]), [].
    split; [rewrite app_nil_r; reflexivity|]. split; [reflexivity|]. rewrite calls_app, E. reflexivity.
  - destruct IH as (front & [|c cs'] & -> & B & E); [|discriminate]. cbn [map]. rewrite app_nil_r in *. exists (front ++ [CallClose]), [].
    split; [rewrite app_nil_r; reflexivity|]. split; [reflexivity|]. rewrite calls_app, E. reflexivity.
Qed.

Lemma calls_through : forall cs, through cs (of_data (calls cs)) (of_pos (calls cs)) [].
Proof.
  intro cs. induction cs as [|c cs IH] using rev_ind; [apply th_open|]. rewrite calls_app. destruct c as [c|p|]; cbn [call1].
  - unfold fputc. cbn [of_data of_pos]. eapply th_store; [|apply write_put]. exact (th_put _ _ _ [] c IH).
  - unfold fseek. cbn [of_data of_pos]. eapply th_seek. exact IH.
  - apply th_close. exact IH.
Qed.

(** ** The file of Model_Io *)
Record traced (w : IoFile) : Prop := {
  t_file : io_file w = calls (rev (io_made w));
  t_seen : forall now later, rev (io_made w) = now ++ later -> In (of_data (calls now)) (io_seen w) }.

Lemma traced_step : forall w w' c f, traced w -> f = call1 (io_file w) c -> io_file w' = f -> io_made w' = c :: io_made w ->
  io_seen w' = of_data f :: io_seen w -> traced w'.
Proof.
  intros w w' c f [F S] Ef Fw Mw Sw.
  assert (Fw' : io_file w' = calls (rev (io_made w'))) by (rewrite Mw; cbn [rev]; rewrite calls_app, <- F; congruence).
  constructor; [exact Fw'|]. intros now later E. rewrite Sw. destruct later as [|x later _] using rev_ind.
  - rewrite app_nil_r in E. left. rewrite <- E, <- Fw', Fw. reflexivity.
  - right. rewrite Mw in E. cbn [rev] in E. rewrite app_assoc in E. apply app_inj_tail in E. destruct E as [E _]. eapply S. exact E.
Qed.

Lemma traced_put : forall c w, traced w -> traced (snd (fputc_io no_fault c w)).
Proof. intros c w H. eapply (traced_step w _ (CallPut c)); eauto; reflexivity. Qed.
Lemma traced_seek : forall p w, traced w -> traced (snd (fseek_io no_fault p w)).
Proof. intros p w H. eapply (traced_step w _ (CallSeek p)); eauto; reflexivity. Qed.
Lemma traced_close : forall w, traced w -> traced (snd (fclose_io no_fault w)).
Proof. intros w H. eapply (traced_step w _ CallClose); eauto; reflexivity. Qed.

(** what holds of the file at first and is kept by the calls holds of it at the end *)
Lemma assemble_keeps : forall fault (Q : IoFile -> Prop),
  (forall c w, Q w -> Q (snd (fputc_io fault c w))) -> (forall p w, Q w -> Q (snd (fseek_io fault p w))) -> Q init_io ->
  forall reads env file src x, assemble_io reads fault env file src = Ret x ->
  exists code out w, Q w /\ x = exit_io fault code out w.
Proof.
  intros fault Q Qp Qs Q0 reads env file src x H. unfold assemble_io in H.
  assert (Rp : forall c (f : OFile) w, Q w -> Q (snd (fputc_io fault c w))) by auto.
  assert (Rs : forall p (f : OFile) w, Q w -> Q (snd (fseek_io fault p w))) by auto.
  assert (Ex : forall s st, state_sim (fun _ w => Q w) s st -> Q (si_io s)) by (intros s st (f & _ & K); exact K).
  assert (S0 : state_sim (fun _ w => Q w) (mkStIo (init_state file) init_io) (init_state file)) by (exists (mkOFile [] 0); split; [reflexivity|exact Q0]).
  pose proof (run_lines_sim fault (fun _ w => Q w) Rp Rs reads env (chunks src) 0%nat _ _ S0) as S.
  destruct (run_lines_io reads fault env 0 (chunks src) (mkStIo (init_state file) init_io)) as [r| |]; cbn [bind] in H; try discriminate.
  destruct (run_lines env (lines_read reads 0 (chunks src)) (init_state file)) as [r'| |]; cbn [MR] in S; try contradiction.
  assert (Fin : forall s st, state_sim (fun _ w => Q w) s st ->
    bind (resolve_all_io fault file (Z.to_nat (un_curr (st_unresolved (si_st s)))) 0 s) (fun r2 =>
     match r2 with
     | AbortIo s2 => Ret (exit_io fault EXIT_FAILURE (st_stdout (si_st s2)) (si_io s2))
     | NextIo s2 | FinishIo s2 =>
       Ret (exit_io fault EXIT_SUCCESS
             (st_stdout (si_st s2) ++ summary (st_total (si_st s2)) (tab_count (st_symtab (si_st s2)))) (si_io s2))
     end) = Ret x -> exists code out w, Q w /\ x = exit_io fault code out w).
  { intros s st Ks K. pose proof (resolve_all_sim fault (fun _ w => Q w) Rp Rs file (Z.to_nat (un_curr (st_unresolved (si_st s)))) 0 s st Ks) as S2.
    destruct (resolve_all_io _ _ _ _ _) as [r2| |]; cbn [bind] in K; try discriminate.
    destruct (resolve_all file (Z.to_nat (un_curr (st_unresolved (si_st s)))) 0 st) as [r2'| |]; cbn [MR] in S2; try contradiction.
    destruct r2 as [s2|s2|s2], r2' as [st2|st2|st2]; try contradiction; injection K as <-; apply Ex in S2; eauto. }
  destruct r as [s|s|s], r' as [st|st|st]; try contradiction; eauto. injection H as <-. apply Ex in S. eauto.
Qed.

Lemma assemble_traced : forall reads env file src x, assemble_io reads no_fault env file src = Ret x ->
  xi_binary x = of_data (calls (rev (xi_made x))) /\
  (forall now later, rev (xi_made x) = now ++ later -> In (of_data (calls now)) (xi_seen x)) /\
  exists cs, rev (xi_made x) = cs ++ [CallClose].
Proof.
  intros reads env file src x H.
  destruct (assemble_keeps no_fault traced traced_put traced_seek) with (reads := reads) (env := env) (file := file) (src := src) (x := x) as (code & out & w & T & ->); auto.
  { constructor; [reflexivity|]. intros now later E. cbn [init_io io_made rev] in E. symmetry in E. apply app_eq_nil in E. destruct E as [-> ->]. left. reflexivity. }
  pose proof (traced_close w T) as [F S]. cbn [exit_io fclose_io no_fault snd] in *. cbn [xi_binary xi_made xi_seen io_file io_made io_seen] in *.
  split; [rewrite F; reflexivity|]. split; [exact S|]. cbn [rev]. eauto.
Qed.

(** whatever the library keeps in its buffer, and for how long: the file a killed process leaves is one of the contents
    recorded, and so C60_other_files, C60_rerun and C60_unfinished hold of it *)
Theorem C60_buffered : forall reads env file src x d, assemble_io reads no_fault env file src = Ret x ->
  leaves (rev (xi_made x)) d -> In d (xi_seen x).
Proof.
  intros reads env file src x d H (now & later & pos & buf & E & T). destruct (assemble_traced _ _ _ _ _ H) as (_ & S & _).
  destruct (through_calls _ _ _ _ T) as (front & cs & -> & _ & F).
  specialize (S front (map CallPut cs ++ later)). rewrite F in S. apply S. rewrite E, app_assoc. reflexivity.
Qed.

Theorem C60_killed : forall reads env fs src out bytes r ms x d, src <> out -> fs_file fs src = Some bytes -> fs_creatable fs out = true ->
  main_io reads no_fault true env fs src out = Ret (r, ms) -> assemble_io reads no_fault env src (map chr bytes) = Ret x ->
  leaves (rev (xi_made x)) d -> In (fs_write (fs_write fs out []) out d) ms.
Proof.
  intros reads env fs src out bytes r ms x d N F C H Hx L. apply (C60_buffered _ _ _ _ _ _ Hx) in L.
  unfold main_io in H. cbn [negb] in H. rewrite F, C in H. cbn [negb] in H. cbn zeta in H. cbn [fs_write fs_file] in H.
  rewrite (text_eqb_other _ _ N), F, Hx in H. cbn [bind] in H. injection H as _ <-. apply in_or_app. left. apply in_map. exact L.
Qed.

(** and when the run is over, the file is the binary, whatever was buffered *)
Theorem C60_flushed : forall reads env file src x, assemble_io reads no_fault env file src = Ret x ->
  (exists pos, through (rev (xi_made x)) (xi_binary x) pos []) /\
  forall d pos buf, through (rev (xi_made x)) d pos buf -> d = xi_binary x /\ buf = [].
Proof.
  intros reads env file src x H. destruct (assemble_traced _ _ _ _ _ H) as (B & _ & cs & E). split.
  - exists (of_pos (calls (rev (xi_made x)))). rewrite B. apply calls_through.
  - intros d pos buf T. destruct (through_calls _ _ _ _ T) as (front & cs' & E2 & -> & F). destruct cs' as [|c cs' _] using rev_ind.
    + split; [|reflexivity]. cbn [map] in E2. rewrite app_nil_r in E2. rewrite B, E2, F. reflexivity.
    + exfalso. rewrite E, map_app, app_assoc in E2. apply app_inj_tail in E2. destruct E2 as [_ K]. discriminate.
Qed.

(** a case: the bytes of the first instruction are stored only when the second one seeks; killed in the middle of the
    store, the process leaves one byte *)
Example C60_buffered_case : exists x, assemble_io all_reads no_fault no_failure (T "a.asm") (map chr (map code two_lines)) = Ret x /\
  xi_binary x = [169; 16; 162; 32] /\ leaves (rev (xi_made x)) [169] /\ leaves (rev (xi_made x)) [].
Proof.
  eexists. split; [vm_compute; reflexivity|]. split; [reflexivity|]. cbn [xi_made rev app]. split.
  - exists [CallSeek 0; CallPut 169; CallPut 16], [CallSeek 2; CallPut 162; CallPut 32; CallClose], 1, [16]. split; [reflexivity|].
    apply (th_store _ [] 0 169 [16]).
    + apply (th_put [CallSeek 0; CallPut 169] [] 0 [169] 16). apply (th_put [CallSeek 0] [] 0 [] 169). apply (th_seek [] [] 0 0). apply th_open.
    + apply (write_put [] 0 169).
  - exists [], [CallSeek 0; CallPut 169; CallPut 16; CallSeek 2; CallPut 162; CallPut 32; CallClose], 0, []. split; [reflexivity|]. apply th_open.
Qed.
