(** Prop_State.v -- C17, C18, C24: labels and the address counter, line after line. *)
From Verif Require Import Base Proof_Base Model_Opcode Model_SymbolTable Model_Generator Model_ForwardRef Model_Main Spec_Isa Spec_Text Spec_Asm
  Spec_Report Proof_Lex2 Proof_Core Proof_Sim2 Proof_Run Proof_Source Proof_Modes Spec_Diag Spec_Prog Proof_Diag Proof_Whole Proof_Ref Proof_Image
  Proof_Regular Proof_At Proof_Prog Proof_Check.

(** the assembler has read all these lines without an error and is in the state [st] *)
Definition read_lines (file : text) (lines : list text) (st : St) : Prop :=
  Forall fits lines /\ small (join lines) /\
  run_lines no_failure (chunks (join lines)) (init_state file) = Ret (Finish st).

(** the labels [e] are those of the symbol table *)
Definition has_labels (st : St) (e : env) : Prop :=
  (forall n v, lookup e n = Some v -> 0 <= v) /\
  forall n, search_symbol (st_symtab st) n =
            Ret (match lookup e n with Some v => v | None => ERROR_SYMBOL_NOT_FOUND end).

Lemma source_join : forall lines, Forall fits lines -> source_of lines (join lines).
Proof. intros lines H. split; auto. Qed.

Lemma read_state : forall file lines p st, read_lines file lines st -> Forall2 line_means lines p -> ~ In SEnd p ->
  exists sd, state_after AsBuilt p = Some sd /\ st_pc st = d_addr sd /\ st_line_num st = 1 + zlen lines /\
    st_total st = total_size (d_done sd) /\ st_out st = file_of (d_done sd) /\
    tab_count (st_symtab st) = zlen (d_env sd) /\
    un_curr (st_unresolved st) = zlen (filter is_open (d_done sd)) /\ has_labels st (d_env sd).
Proof.
  intros file lines p st (HF & HB & HR) HM HE. pose proof (source_join _ HF) as HS.
  destruct (state_after AsBuilt p) as [sd|] eqn:E.
  - destruct (state_of_program file lines (join lines) p sd HS HM HB E) as (st' & A & B). rewrite HR in A. injection A as <-.
    destruct B as (B1 & B2 & B3 & B4 & B5 & B6 & B7).
    destruct (state_after_pass1 _ _ _ E) as (P & _). destruct (program_bounds _ _ _ (lines_16 _ _ HM) P) as [_ Bd].
    exists sd. do 7 (split; [auto; fail|]). split; [|exact B7]. intros n v L. apply (Bd n v L).
  - destruct (state_stops file lines (join lines) p HS HM HB HE E) as (st' & A). congruence.
Qed.

Lemma join_app : forall a b, join (a ++ b) = join a ++ join b.
Proof. intros. unfold join. rewrite map_app, concat_app. reflexivity. Qed.

Lemma small_front : forall a b, small (a ++ b) -> small a.
Proof. intros a b H. unfold small in *. rewrite app_length in H. lia. Qed.

Lemma state_read : forall file lines p sd, Forall fits lines -> small (join lines) -> Forall2 line_means lines p ->
  state_after AsBuilt p = Some sd -> exists st, read_lines file lines st.
Proof.
  intros file lines p sd HF HB HM E.
  destruct (state_of_program file lines (join lines) p sd (source_join _ HF) HM HB E) as (st & A & _).
  exists st. split; auto.
Qed.

Lemma means_split : forall k lines p, Forall2 line_means lines p ->
  Forall2 line_means (firstn k lines) (firstn k p).
Proof. induction k; intros lines p H; [constructor|]. destruct H; cbn; constructor; auto. Qed.

(** ** C18: a label denotes the address where it stands.  When the lines have been read,
    the table holds, for a label a line defines, its literal, or the value the address
    counter had in front of that line. *)
Theorem C18_label_value : forall file lines p st k s n,
  read_lines file lines st -> Forall2 line_means lines p -> ~ In SEnd p ->
  nth_error p k = Some s -> defines s = Some n ->
  exists before, read_lines file (firstn k lines) before /\
    search_symbol (st_symtab st) n = Ret (match s with SConst _ v => v | _ => st_pc before end).
Proof.
  intros file lines p st k s n HR HM HE Hk Hd.
  destruct (read_state _ _ _ _ HR HM HE) as (sd & E & _ & _ & _ & _ & _ & _ & HL).
  pose proof HR as (HF & HB & _).
  assert (exists sk, state_after AsBuilt (firstn k p) = Some sk) as (sk & Ek).
  { unfold state_after in *. rewrite <- (firstn_skipn k p), accepts_app in E.
    destruct (accepts AsBuilt 1 (mkD 0 [] []) (firstn k p)); [eauto|discriminate]. }
  assert (Nk : ~ In SEnd (firstn k p)) by (intro K; apply HE; rewrite <- (firstn_skipn k p); apply in_or_app; auto).
  assert (HFk : Forall fits (firstn k lines)).
  { rewrite <- (firstn_skipn k lines) in HF. apply Forall_app in HF. tauto. }
  assert (HBk : small (join (firstn k lines))).
  { apply (small_front _ (join (skipn k lines))). rewrite <- join_app, firstn_skipn. exact HB. }
  destruct (state_read file _ _ sk HFk HBk (means_split k _ _ HM) Ek) as (before & Rb).
  exists before. split; [exact Rb|]. destruct HL as [_ HL]. rewrite HL.
  destruct (read_state _ _ _ _ Rb (means_split k _ _ HM) Nk) as (sk' & E' & Pc & _). rewrite Ek in E'. injection E' as <-.
  destruct (state_after_pass1 _ _ _ E) as (P1 & _). destruct (state_after_pass1 _ _ _ Ek) as (P2 & _).
  destruct (pass1_label AsBuilt p k s n (p1_of sd)) as (a & A & B); auto.
  { rewrite body_id by exact HE. exact Hk. }
  unfold address in A. rewrite body_id in A by exact HE. rewrite P2 in A. injection A as <-.
  cbn [p1_of p1_env p1_addr] in B. rewrite B, Pc. reflexivity.
Qed.

(** a label no line defines is not found *)
Theorem C18_no_other_label : forall file lines p st n,
  read_lines file lines st -> Forall2 line_means lines p -> ~ In SEnd p ->
  ~ (exists s, In s p /\ defines s = Some n) ->
  search_symbol (st_symtab st) n = Ret ERROR_SYMBOL_NOT_FOUND.
Proof.
  intros file lines p st n HR HM HE N.
  destruct (read_state _ _ _ _ HR HM HE) as (sd & E & _ & _ & _ & _ & _ & _ & HL).
  destruct HL as [_ HL]. rewrite HL, (not_defined _ _ _ _ E N). reflexivity.
Qed.

(** ** C17: labels are write-once *)
(** the value of a label does not change when more lines are read *)
Theorem C17_value_kept : forall file lines more p q st st' n v,
  read_lines file lines st -> read_lines file (lines ++ more) st' ->
  Forall2 line_means lines p -> Forall2 line_means more q -> ~ In SEnd (p ++ q) ->
  search_symbol (st_symtab st) n = Ret v -> 0 <= v ->
  search_symbol (st_symtab st') n = Ret v.
Proof.
  intros file lines more p q st st' n v HR HR' HM HM' HE HV Hv.
  assert (Np : ~ In SEnd p) by (intro K; apply HE, in_or_app; auto).
  destruct (read_state _ _ _ _ HR HM Np) as (sd & E & _ & _ & _ & _ & _ & _ & HL).
  destruct (read_state _ _ _ _ HR' (Forall2_app HM HM') HE) as (sd' & E' & _ & _ & _ & _ & _ & _ & HL').
  destruct HL as [_ HL], HL' as [_ HL']. rewrite HL in HV. rewrite HL'. destruct (lookup (d_env sd) n) as [w|] eqn:L.
  2:{ injection HV as <-. exfalso. revert Hv. vm_compute. intro K. apply K. reflexivity. }
  injection HV as ->.
  destruct (state_after_pass1 _ _ _ E) as (P1 & _). destruct (state_after_pass1 _ _ _ E') as (P2 & _).
  unfold pass1_program in *. rewrite pass1_app, P1 in P2 by exact Np.
  destruct (pass1_extends _ _ _ _ P2) as [_ Ex]. cbn [p1_of p1_env] in Ex. rewrite (Ex _ _ L). reflexivity.
Qed.

Lemma first_label : forall toks s n, Line (map fst toks) s -> defines s = Some n ->
  exists q, place_offset toks AtLabel = Some q /\ In (TLabel n, q) toks.
Proof.
  intros toks s n H D.
  destruct toks as [|[t q] toks]; cbn [map fst] in H; [inversion H; subst; discriminate|].
  inversion H; subst; cbn [defines] in D; try discriminate; try (injection D as ->); try (subst t);
    try (exists q; split; [reflexivity|left; reflexivity]).
  (* .DEFINE *)
  destruct toks as [|[t1 q1] toks]; [discriminate|]. destruct toks as [|[t2 q2] toks]; [discriminate|].
  cbn [map fst] in *. repeat match goal with HH : _ :: _ = _ :: _ |- _ => injection HH as ?; subst end.
  exists q1. split; [reflexivity|right; left; reflexivity].
Qed.

(** a second definition of a label is rejected, by a report that points at that label *)
Theorem C17_redefinition : forall file pre line post src p st toks s s0 n,
  source_of (pre ++ line :: post) src -> small src ->
  Forall2 line_means pre p -> ~ In SEnd p -> read_lines file pre st ->
  In s0 p -> defines s0 = Some n ->
  Lexes literal16 true 0 line toks -> Line (map fst toks) s -> defines s = Some n ->
  exists o q, gaia file src = Ret o /\ exit_code o = 1 /\ In (TLabel n, q) toks /\
    Report file (1 + Z.of_nat (List.length pre)) "no redefinition of labels" (before_nul line) (Some q) (stdout o).
Proof.
  intros file pre line post src p st toks s s0 n HS HB HM HE HR H0 D0 HL HG HD.
  destruct (read_state _ _ _ _ HR HM HE) as (sd & E & _).
  destruct (state_after_env _ _ _ E) as [_ C]. destruct (proj2 (C n)) as (v & Lv); [eauto|].
  assert (Dg : diag_stmt AsBuilt (1 + zlen pre) sd s = inr ("no redefinition of labels"%string, AtLabel)).
  { destruct s as [|l|l w|w| |[l|] m o]; cbn [defines] in HD; try discriminate; injection HD as ->; cbn [diag_stmt]; rewrite Lv; reflexivity. }
  destruct (at_semantic_error file pre line post src p sd HS HM E HB toks s _ _ HL HG Dg) as (o & A & B & Rp & _).
  destruct (first_label _ _ _ HG HD) as (q & Eq & Hq). rewrite Eq in Rp. exists o, q. auto.
Qed.

(** ** C24: the address counter *)
Theorem C24_counter : forall file lines line p s st st' e,
  read_lines file lines st -> read_lines file (lines ++ [line]) st' ->
  Forall2 line_means lines p -> line_means line s -> ~ In SEnd (p ++ [s]) -> has_labels st e ->
  match s with
  | SInstr lab m o =>
      exists md op size, denoted_mode m o (value_of (with_own lab (st_pc st) e) o) = Some md /\
        size = 1 + operand_bytes md /\
        (listed m md = Some (op, size) \/ (m = "JMP"%string /\ (md = ABSX \/ md = ABSY))) /\
        st_pc st' = st_pc st + size
  | SOrg v => st_pc st' = v
  | _ => st_pc st' = st_pc st
  end.
Proof.
  intros file lines line p s st st' e HR HR' HM Hm HE HL0.
  assert (Np : ~ In SEnd p) by (intro K; apply HE, in_or_app; auto).
  assert (Ns : s <> SEnd) by (intros ->; apply HE, in_or_app; right; left; reflexivity).
  destruct (read_state _ _ _ _ HR HM Np) as (sd & E & Pc & _ & _ & _ & _ & _ & HL).
  destruct (read_state _ _ _ _ HR' (Forall2_app HM (Forall2_cons _ _ Hm (Forall2_nil _))) HE) as (sd' & E' & Pc' & _).
  destruct (state_after_pass1 _ _ _ E) as (P1 & _). destruct (state_after_pass1 _ _ _ E') as (P2 & _).
  unfold pass1_program in *. rewrite pass1_app, P1, pass1_cons in P2 by auto.
  destruct (pass1_stmt AsBuilt (p1_of sd) s) as [q|] eqn:Es; [|discriminate]. cbn [pass1] in P2. injection P2 as ->.
  assert (V : forall lab o, value_of (with_own lab (st_pc st) e) o = value_of (with_own lab (d_addr sd) (d_env sd)) o).
  { assert (Q : forall n, lookup e n = lookup (d_env sd) n).
    { intro n. destruct HL0 as [N0 HL0], HL as [N1 HL]. pose proof (HL0 n) as A. rewrite HL in A. injection A as A.
      pose proof (N0 n) as N0n. pose proof (N1 n) as N1n.
      destruct (lookup e n) as [v|], (lookup (d_env sd) n) as [w|]; try congruence; exfalso.
      - specialize (N0n _ eq_refl). subst v. revert N0n. vm_compute. auto.
      - specialize (N1n _ eq_refl). subst w. revert N1n. vm_compute. auto. }
    intros lab o. rewrite Pc. unfold value_of. destruct (operand_expr o) as [[v|n]|]; auto. cbn [eval].
    destruct lab as [l|]; cbn [with_own lookup]; [destruct (text_eqb l n)|]; auto. }
  rewrite Pc, Pc'. destruct s as [|n|n v|v| |lab m o]; cbn [pass1_stmt] in Es; try congruence.
  - injection Es as Es _ _. congruence.
  - apply define_some in Es. destruct Es as [_ Es]. injection Es as Es _ _. exact Es.
  - apply define_some in Es. destruct Es as [_ Es]. injection Es as Es _ _. exact Es.
  - injection Es as Es _ _. congruence.
  - change (pass1_stmt AsBuilt (p1_of sd) (SInstr lab m o) = Some (p1_of sd')) in Es.
    apply pass1_stmt_instr in Es. cbn [p1_of p1_env p1_addr] in Es.
    destruct Es as (md & op & size & Dm & M & _ & Eq). injection Eq as Eq _ _.
    exists md, op, size. split; [rewrite <- Dm; f_equal; rewrite <- V, Pc; reflexivity|].
    split; [|split; [|exact Eq]].
    + destruct (has_mode_bytes _ _ _ _ _ _ M) as [-> _]. destruct md; reflexivity.
    + destruct (has_mode_cases _ _ _ _ _ _ M) as [K|(_ & -> & _ & K & _)]; auto.
Qed.

(** ** The hypotheses are met *)
Lemma no_end : forall p, forallb (fun s => match s with SEnd => false | _ => true end) p = true -> ~ In SEnd p.
Proof. intros p H K. rewrite forallb_forall in H. specialize (H _ K). discriminate. Qed.

Lemma read_check : forall file lines p, forallb fitsb lines = true -> (Z.of_nat (List.length (join lines)) <? 20000000) = true ->
  statements lines = Some p -> match state_after AsBuilt p with Some _ => true | None => false end = true ->
  Forall2 line_means lines p /\ ~ In SEnd p /\ exists st, read_lines file lines st.
Proof.
  intros file lines p H1 H2 H3 H4. destruct (state_after AsBuilt p) as [sd|] eqn:E; [|discriminate].
  pose proof (statements_ok _ _ H3) as HM. split; [exact HM|].
  destruct (state_after_pass1 _ _ _ E) as (_ & _ & N). split; [exact N|].
  eapply state_read; eauto using fitsb_ok. unfold small. apply Z.ltb_lt. exact H2.
Qed.

Example C18_example : exists file lines p st, read_lines file lines st /\ Forall2 line_means lines p /\ ~ In SEnd p /\
  nth_error p 1 = Some (SConst (T "COUNT") 5) /\
  (exists m o, nth_error p 2 = Some (SInstr (Some (T "START")) m o)) /\ nth_error p 3 = Some (SLabel (T "LOOP")).
Proof.
  destruct (read_check (T "a.asm") demo demo_stmts) as (A & B & st & C); [vm_compute; reflexivity|vm_compute; reflexivity|vm_compute; reflexivity|vm_compute; reflexivity|].
  exists (T "a.asm"), demo, demo_stmts, st. split; [exact C|]. split; [exact A|]. split; [exact B|].
  split; [vm_compute; reflexivity|]. split; [|vm_compute; reflexivity]. do 2 eexists. vm_compute. reflexivity.
Qed.

Example C17_example : exists file pre line p st toks s s0 n, 
  source_of (pre ++ [line]) (join (pre ++ [line])) /\ small (join (pre ++ [line])) /\
  Forall2 line_means pre p /\ ~ In SEnd p /\ read_lines file pre st /\
  In s0 p /\ defines s0 = Some n /\
  Lexes literal16 true 0 line toks /\ Line (map fst toks) s /\ defines s = Some n.
Proof.
  destruct (read_check (T "a.asm") demo demo_stmts) as (A & B & st & C); [vm_compute; reflexivity|vm_compute; reflexivity|vm_compute; reflexivity|vm_compute; reflexivity|].
  exists (T "a.asm"), demo, (T " loop .equ 7"), demo_stmts, st.
  destruct (tokens (T " loop .equ 7")) as [toks|] eqn:E; [|vm_compute in E; discriminate].
  exists toks, (SConst (T "LOOP") 7), (SLabel (T "LOOP")), (T "LOOP").
  split; [split; [apply fitsb_ok; vm_compute; reflexivity|left; reflexivity]|].
  split; [unfold small; vm_compute; reflexivity|]. do 3 (split; [assumption|]).
  split; [vm_compute; tauto|]. split; [reflexivity|]. split; [apply tokens_ok; exact E|]. split; [|reflexivity].
  apply lineb_ok. vm_compute in E. injection E as <-. reflexivity.
Qed.

Example C24_example : exists file lines line p st st' e s, read_lines file lines st /\ read_lines file (lines ++ [line]) st' /\
  Forall2 line_means lines p /\ line_means line s /\ ~ In SEnd (p ++ [s]) /\ has_labels st e /\
  s = SInstr None "BNE" (ODir (Lab (T "LOOP"))) /\ exists v, lookup e (T "LOOP") = Some v.
Proof.
  set (lines := firstn 5 demo). set (line := nth 5 demo []).
  assert (P : exists p, statements lines = Some p) by (eexists; vm_compute; reflexivity). destruct P as (p & P).
  pose proof P as P0. vm_compute in P0. injection P0 as P0.
  destruct (read_check (T "a.asm") lines p) as (A & B & st & C);
    [vm_compute; reflexivity|vm_compute; reflexivity|exact P|rewrite <- P0; vm_compute; reflexivity|].
  destruct (read_check (T "a.asm") (lines ++ [line]) (p ++ [SInstr None "BNE" (ODir (Lab (T "LOOP")))])) as (A' & B' & st' & C');
    [vm_compute; reflexivity|vm_compute; reflexivity|rewrite <- P0; vm_compute; reflexivity|rewrite <- P0; vm_compute; reflexivity|].
  destruct (read_state _ _ _ _ C A B) as (sd & Es & _ & _ & _ & _ & _ & _ & L).
  exists (T "a.asm"), lines, line, p, st, st', (d_env sd), (SInstr None "BNE" (ODir (Lab (T "LOOP")))).
  split; [exact C|]. split; [exact C'|]. split; [exact A|]. split; [apply statement_ok; vm_compute; reflexivity|].
  split; [exact B'|]. split; [exact L|]. split; [reflexivity|].
  rewrite <- P0 in Es. vm_compute in Es. injection Es as <-. eexists. vm_compute. reflexivity.
Qed.
