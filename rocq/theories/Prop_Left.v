(** Prop_Left.v -- C73: the output file of every run, failed or not. *)
From Verif Require Import Base Proof_Base Model_Opcode Model_Generator Model_ForwardRef Model_Main Spec_Isa Spec_Text Spec_Asm Spec_Diag Spec_Link Spec_Grammar Spec_Prog Spec_Report Spec_Left
  Proof_Modes Proof_Lex2 Proof_Core Proof_Parse Proof_Sim2 Proof_Run Proof_Source Proof_Diag Proof_Whole Proof_Ref Proof_Image Proof_At Proof_Prog Proof_Check Proof_Crash Proof_Fun Prop_Edit Prop_State Prop_Lines Prop_Syntax.

Lemma finish_completed : forall located e done refs f, Forall2 (ref_at located) (filter is_open done) refs ->
  match finish e refs f with FDone g | FErr _ _ g => g = do_writes (completed AsBuilt e done) f end.
Proof.
  intros located e. induction done as [|p done IH]; intros refs f H; cbn [filter] in *.
  - inversion H; subst. reflexivity.
  - unfold is_open in H. cbn [completed]. destruct (pl_bytes p) as [bs|] eqn:Eb; [apply IH; exact H|].
    inversion H as [|? r ? refs' HP H']; subst. destruct HP as [Hl Hp Hn Hnm Hfl Hli Hk Hmd Hw _].
    cbn [finish]. unfold encode_operand. rewrite Hl. cbn [eval].
    destruct (lookup e (fr_label r)) as [v|]; [|reflexivity].
    destruct (is_branch (i_mnemonic (fr_instr r))) eqn:B.
    + rewrite Hmd. rewrite branch_offset_spec, Hp. cbn zeta.
      destruct ((-128 <=? v - (it_addr (pl_item p) + 2)) && (v - (it_addr (pl_item p) + 2) <=? 127)); [|reflexivity].
      rewrite Hfl, (write_at_same _ [it_opcode (pl_item p); (v - (it_addr (pl_item p) + 2)) mod 256]) by
         (constructor; [exact Hli|repeat constructor]).
      apply IH. exact H'.
    + specialize (Hw eq_refl).
      assert (Ee : (match it_mode (pl_item p) with
               | REL => let d := v - (it_addr (pl_item p) + 2) in
                        if (-128 <=? d) && (d <=? 127) then Some [d mod 256] else None
               | ABS | ABSX | ABSY | IND => Some [lo v; hi v]
               | _ => Some [lo v]
               end) = Some [lo v; hi v]) by (destruct (it_mode (pl_item p)); try discriminate; reflexivity).
      cbv zeta in Ee |- *. rewrite Ee, Hfl, Hp.
      rewrite (write_at_same _ [it_opcode (pl_item p); lo v; hi v]) by
        (constructor; [exact Hli|repeat constructor; auto using same_byte_lo, same_byte_hi]).
      apply IH. exact H'.
Qed.

Definition final_file (r : final) : option OFile :=
  match r with FinOk _ f | FinErr _ _ _ f | FinSilent f => Some f | FinUndef => None end.

Definition left_file (x : dstate * bool) : OFile :=
  let '(st, whole) := x in
  if whole then do_writes (completed AsBuilt (d_env st) (d_done st)) (file_of (d_done st)) else file_of (d_done st).

Lemma close_left : forall located n st c, DAt located n st c -> final_file (close c) = Some (left_file (st, true)).
Proof.
  intros located n st c [E P L Tt R F]. unfold close. pose proof (finish_completed located (c_env c) (d_done st) (c_refs c) (c_file c) R) as H.
  destruct (finish (c_env c) (c_refs c) (c_file c)) as [f|m r f]; cbn [final_file left_file]; rewrite H, E, F; reflexivity.
Qed.

Lemma run_left : forall all lines p reads n st c, Forall2 line_means lines p ->
  Forall2 read_as lines reads -> DRel all n st c -> part all n lines ->
  exists r, Run (map cstring reads) c r /\ final_file r = Some (left_file (reading AsBuilt n st p)).
Proof.
  intros all lines p reads n st c H. revert reads n st c. induction H as [|l s lines p (toks & HL & HG) H IH];
    intros reads n st c HRd HR HP.
  - inversion HRd; subst. exists (close c). split; [constructor|]. cbn [reading]. eapply close_left; eauto.
  - inversion HRd as [|? rd ? rds Hrd HRd']; subst.
    pose proof (line_diag all (cstring rd) l toks n st c s HR (part_nth _ _ _ _ HP) HL HG) as LD.
    assert (Lexes wr true 0 (cstring rd) toks) as HL2 by (eapply Lexes_read; [apply Lexes_wr; exact HL|exact Hrd]).
    assert ((List.length toks <= 8)%nat) as HN by (rewrite <- (map_length fst toks); eapply Line_short; eauto).
    assert (s = SEnd \/ s <> SEnd) as [-> |Ns] by (destruct s; auto; right; discriminate).
    + exists (close c). split; [cbn [map]; eapply Run_finish; eauto|]. cbn [reading]. eapply close_left; eauto.
    + assert (LD' : match diag_stmt AsBuilt n st s with
        | inl st' => exists c', line_step (cstring rd) toks c = CNext c' /\ DRel all (n + 1) st' c'
        | inr (msg, w) => line_step (cstring rd) toks c = CErr msg (place_offset toks w) end)
        by (destruct s; try congruence; exact LD).
      assert (reading AsBuilt n st (s :: p) = match diag_stmt AsBuilt n st s with
        | inl st' => reading AsBuilt (n + 1) st' p | inr _ => (st, false) end) as -> by (destruct s; try congruence; reflexivity).
      destruct (diag_stmt AsBuilt n st s) as [st1|[m w]].
      * destruct LD' as (c1 & Es & HR1).
        destruct (IH rds (n + 1) st1 c1 HRd' HR1 (part_next _ _ _ _ HP)) as (r & R1 & R2).
        exists r. split; [cbn [map]; eapply Run_next; eauto|exact R2].
      * eexists. split; [cbn [map]; eapply Run_err; eauto|]. cbn [final_file left_file]. rewrite (r_file _ _ _ _ HR). reflexivity.
Qed.

(** ** Images *)
Lemma reading_good : forall p n st, Forall stmt_ok p -> good_d st -> Forall (sound_placed AsBuilt (d_env st)) (d_done st) ->
  let st' := fst (reading AsBuilt n st p) in good_d st' /\ Forall (sound_placed AsBuilt (d_env st')) (d_done st').
Proof.
  induction p as [|s p IH]; intros n st F G S; [cbn; auto|]. inversion F as [|? ? Fs F']; subst.
  assert (s = SEnd \/ s <> SEnd) as [-> |Ns] by (destruct s; auto; right; discriminate); [cbn; auto|].
  assert (reading AsBuilt n st (s :: p) = match diag_stmt AsBuilt n st s with
        | inl st' => reading AsBuilt (n + 1) st' p | inr _ => (st, false) end) as -> by (destruct s; try congruence; reflexivity).
  pose proof (diag_stmt_ref AsBuilt n st s S) as R. pose proof (diag_stmt_good n st s) as K.
  destruct (diag_stmt AsBuilt n st s) as [st1|e]; [|cbn; auto]. apply IH; [exact F'|apply K; auto|].
  destruct s; try congruence; apply R.
Qed.

Lemma all_good : forall st, good_d st -> Forall (sound_placed AsBuilt (d_env st)) (d_done st) -> Forall good_placed (d_done st).
Proof.
  intros st (G1 & G2 & G3) HS. set (l := d_done st) in *. clearbody l. induction G2 as [|p l Gp G2 IH]; [constructor|].
  inversion HS as [|? ? S1 S2]; subst. inversion G3 as [|? ? T1 T2]; subst. constructor; [|apply IH; assumption].
  pose proof Gp as (P1 & P2 & P3 & P4 & P5). unfold sound_placed in S1. unfold good_placed, is_open in *.
  destruct (pl_bytes p) as [bs|] eqn:Eb.
  - pose proof (encode_length _ _ _ Gp S1) as L. pose proof (encode_bytes _ _ _ S1 P5) as B. pose proof (zlen_pos _ bs).
    repeat split; try apply P2; auto; lia.
  - destruct (T1 eq_refl) as (lb & Hl). destruct (narrow (it_mode (pl_item p))) eqn:Nw; [destruct P4 as [P4 _]; rewrite (P4 eq_refl) in Hl; discriminate|].
    repeat split; try apply P2; auto; destruct (wide (it_mode (pl_item p))); lia.
Qed.

Lemma completed_good : forall st e, good_d st -> Forall (sound_placed AsBuilt (d_env st)) (d_done st) ->
  Forall good_piece (completed AsBuilt e (d_done st)).
Proof.
  intros st e (G1 & G2 & G3) _. induction G2 as [|p l Gp G2 IH]; [constructor|]. inversion G3 as [|? ? T1 T2]; subst. cbn [completed].
  destruct (pl_bytes p); [auto|]. destruct (encode_operand AsBuilt e (pl_item p)) as [bs|] eqn:E; [|constructor].
  pose proof Gp as (P1 & P2 & P3 & P4 & P5). constructor; [|auto]. split; [exact P1|]. split; [discriminate|]. constructor; [exact P2|].
  eapply encode_bytes; eauto.
Qed.

Lemma file_image : forall st, good_d st -> Forall (sound_placed AsBuilt (d_env st)) (d_done st) ->
  is_image (first_writes 0 (d_done st)) (of_data (file_of (d_done st))) /\
  is_image (first_writes 0 (d_done st) ++ completed AsBuilt (d_env st) (d_done st))
    (of_data (do_writes (completed AsBuilt (d_env st) (d_done st)) (file_of (d_done st)))).
Proof.
  intros st G S. pose proof (all_good st G S) as A.
  assert (E : file_of (d_done st) = do_writes (first_writes 0 (d_done st)) (mkOFile [] 0)).
  { unfold file_of. rewrite first_writes_file by exact A. reflexivity. }
  pose proof (first_good (d_done st) 0 (Z.le_refl 0) A) as W. rewrite E. split.
  - apply writes_image. exact W.
  - unfold do_writes. rewrite <- fold_left_app. apply writes_image. apply Forall_app. split; [exact W|].
    apply completed_good; assumption.
Qed.

Lemma left_image : forall p, Forall stmt_ok p -> is_image (left_behind AsBuilt p) (of_data (left_file (reading AsBuilt 1 (mkD 0 [] []) p))).
Proof.
  intros p F. pose proof (reading_good p 1 (mkD 0 [] []) F good_init (Forall_nil _)) as G. unfold left_behind.
  destruct (reading AsBuilt 1 (mkD 0 [] []) p) as [st whole]. cbn [fst] in G. destruct G as [G S]. destruct (file_image st G S) as [A B].
  unfold left_file. destruct whole; [exact B|rewrite app_nil_r; exact A].
Qed.

(** ** C73 *)
Theorem C73_file : forall file src p, program_means src p -> small src ->
  exists o, gaia file src = Ret o /\ is_image (left_behind AsBuilt p) (binary o).
Proof.
  intros file src p (lines & HS & HM) HB. pose proof (chunks_source _ _ HS) as HRd.
  destruct (run_left lines lines p (chunks src) 1 (mkD 0 [] []) core_init HM HRd (DRel_init lines)) as (r & R & D).
  { exists []. split; reflexivity. }
  pose proof (left_image p (Forall_impl _ stmt16_ok (lines_16 _ _ HM))) as I.
  destruct (gaia_run file src r R) as [S|[_ K]]; [|change (zlen src < FEW) in HB; lia].
  destruct r as [c f|m n pos f|f|]; cbn [settled final_file] in *; try discriminate; injection D as ->.
  - rewrite S. eexists. split; [reflexivity|exact I].
  - destruct S as (out & line & -> & _). eexists. split; [reflexivity|exact I].
  - rewrite S. eexists. split; [reflexivity|exact I].
Qed.

(** a line that cannot be read: a lexical error, more than eight tokens, or a departure from the grammar *)
Definition unreadable (line : text) : Prop :=
  (exists e pos, LexFails literal_wrapping line e pos) \/ TooManyTokens literal_wrapping line \/
  (exists toks i, Lexes literal_wrapping true 0 line toks /\ (List.length toks <= 8)%nat /\ departs_at (map fst toks) i /\
     ~ trailing_junk (map fst toks)).

Lemma reading_accepts : forall p n st st', accepts AsBuilt n st p = Some st' -> reading AsBuilt n st p = (st', true).
Proof.
  induction p as [|s p IH]; intros n st st' H; cbn [accepts] in H; [injection H as <-; reflexivity|].
  destruct s; try discriminate; cbn [reading]; destruct (diag_stmt AsBuilt n st _) as [st1|]; try discriminate; apply IH; exact H.
Qed.

Theorem C73_unreadable : forall file pre line post src st p, in_front file pre line post src st -> Forall2 line_means pre p ->
  unreadable line ->
  exists o, gaia file src = Ret o /\ exit_code o = 1 /\ is_image (left_before AsBuilt p) (binary o).
Proof.
  intros file pre line post src st p (HS & HB & HR & p0 & HM0 & HE) HM U.
  assert (p0 = p) as -> by
    (clear - HM0 HM; revert p HM; induction HM0; intros q HM; inversion HM; subst; f_equal; eauto using line_means_fun).
  destruct (read_state _ _ _ _ HR HM HE) as (sd & E & _).
  assert (I : is_image (left_before AsBuilt p) (of_data (file_of (d_done sd)))).
  { unfold left_before. pose proof (reading_good p 1 (mkD 0 [] []) (Forall_impl _ stmt16_ok (lines_16 _ _ HM)) good_init (Forall_nil _)) as G.
    rewrite (reading_accepts _ _ _ _ E) in G |- *. cbn [fst] in *. destruct G as [G S]. apply file_image; assumption. }
  destruct U as [(e & pos & L)|[L|(toks & i & L & N & D & J)]].
  - destruct (at_lex_error file pre line post src p sd HS HM E HB e pos L) as (o & K1 & K2 & _ & K3). exists o. rewrite K3. auto.
  - pose proof (at_too_many file pre line post src p sd HS HM E HB L) as K. eexists. split; [exact K|]. cbn. auto.
  - destruct (at_syntax_error file pre line post src p sd HS HM E HB toks i L N D J) as (o & K1 & K2 & _ & K3). exists o. rewrite K3. auto.
Qed.

(** ** The hypotheses are met *)
(** an error found while the open operands are completed: the ones in front of it are, the others are not *)
Example C73_case : exists file src p o, program_means src p /\ small src /\ gaia file src = Ret o /\ exit_code o = 1 /\
  left_behind AsBuilt p = 
    [(2, [165; 7]); (4, [0; 0; 0]); (4, [76; 0; 0]); (7, [0; 0]); (7, [208; 0]); (9, [0; 0; 0]); (9, [76; 0; 0]); (12, [234]); (4, [76; 12; 0])] /\
  binary o = [0; 0; 165; 7; 76; 12; 0; 208; 0; 76; 0; 0; 234].
Proof.
  set (l := [T ".org 2"; T " lda 7"; T " jmp OUT"; T " bne FAR"; T " jmp OUT"; T "OUT: nop"]).
  destruct (statements l) as [p|] eqn:E; [|vm_compute in E; discriminate].
  exists (T "a.asm"), (join l), p. vm_compute in E. injection E as <-. eexists.
  split; [apply means_lines; vm_compute; reflexivity|]. split; [vm_compute; reflexivity|].
  split; [vm_compute; reflexivity|]. split; [reflexivity|]. split; [vm_compute; reflexivity|reflexivity].
Qed.

(** an error found while reading: no open operand is completed *)
Example C73_reading_case : exists file src p o, program_means src p /\ small src /\ gaia file src = Ret o /\ exit_code o = 1 /\
  left_behind AsBuilt p = [(0, [0; 0; 0]); (0, [76; 0; 0]); (3, [234])] /\ binary o = [76; 0; 0; 234].
Proof.
  set (l := [T " jmp OUT"; T "OUT: nop"; T "OUT = 4"; T " nop"]).
  destruct (statements l) as [p|] eqn:E; [|vm_compute in E; discriminate].
  exists (T "a.asm"), (join l), p. vm_compute in E. injection E as <-. eexists.
  split; [apply means_lines; vm_compute; reflexivity|]. split; [vm_compute; reflexivity|].
  split; [vm_compute; reflexivity|]. split; [reflexivity|]. split; reflexivity.
Qed.

Example C73_unreadable_case : exists file pre line post src st p, in_front file pre line post src st /\ Forall2 line_means pre p /\
  unreadable line /\ left_before AsBuilt p = [(0, [0; 0; 0]); (3, [76; 0; 0]); (6, [234])].
Proof.
  set (pre := [T ".org 3"; T " jmp OUT"; T "OUT: nop"]). set (line := T " JMP (OUT), , ").
  destruct (statements pre) as [p|] eqn:E; [|vm_compute in E; discriminate]. pose proof (statements_ok _ _ E) as M. vm_compute in E. injection E as <-.
  destruct (front_check (T "a.asm") pre line [T "BRK"] _ _ ltac:(vm_compute; reflexivity) ltac:(vm_compute; reflexivity)
    ltac:(vm_compute; reflexivity) ltac:(vm_compute; reflexivity)) as (st & F & _).
  do 5 eexists. exists st. eexists. split; [exact F|]. split; [exact M|]. split; [|reflexivity].
  right. right. do 2 eexists. split; [apply Lexes_wr, tokens_ok; vm_compute; reflexivity|]. split; [cbn; lia|].
  assert (C : compile [TMnemonic "JMP"; TOpen; TLabel (T "OUT"); TClose; TComma; TComma] = inr (false, 5%nat)) by reflexivity.
  destruct (departs_check _ _ _ C) as [D J]. split; [exact D|exact J].
Qed.
