(** Proof_Alike.v -- two sources whose lines act alike give the same result. *)
From Verif Require Import Base Proof_Base Model_Opcode Model_SymbolTable Model_ForwardRef Model_Generator Model_Main
  Spec_Isa Spec_Text Spec_Asm Spec_Report Spec_Alike Proof_Lex2 Proof_Core Proof_Sim2 Proof_Run.

(** ** States that differ at most in the texts and columns kept for the reports *)
Definition ref_alike (r r' : ForwardRef) : Prop :=
  fr_label r = fr_label r' /\ fr_instr r = fr_instr r' /\ fr_pc r = fr_pc r' /\ fr_line_num r = fr_line_num r' /\
  fr_operand_status r = fr_operand_status r'.

Record core_alike (c c' : core) : Prop := mkAlike {
  al_env : c_env c = c_env c';
  al_refs : Forall2 ref_alike (c_refs c) (c_refs c');
  al_pc : c_pc c = c_pc c';
  al_line : c_line c = c_line c';
  al_total : c_total c = c_total c';
  al_file : c_file c = c_file c' }.

Definition res_alike (r r' : cres) : Prop :=
  match r, r' with
  | CNext c, CNext c' => core_alike c c'
  | CFinish c, CFinish c' => core_alike c c'
  | CErr m _, CErr m' _ => m = m'
  | _, _ => False
  end.

Definition final_alike (f f' : final) : Prop :=
  match f, f' with
  | FinOk c o, FinOk c' o' => core_alike c c' /\ o = o'
  | FinErr m n _ o, FinErr m' n' _ o' => m = m' /\ n = n' /\ o = o'
  | FinSilent o, FinSilent o' => o = o'
  | FinUndef, FinUndef => True
  | _, _ => False
  end.

Lemma alike_refl : forall c, core_alike c c.
Proof. intro c. constructor; auto. induction (c_refs c); constructor; auto. repeat split. Qed.

(** the line [l'] acts as the line [l] *)
Record acts_as (l l' : text) : Prop := mkActs {
  acts_lex : forall toks, Lexes wr true 0 l toks -> (List.length toks <= 8)%nat ->
    exists toks', Lexes wr true 0 l' toks' /\ (List.length toks' <= 8)%nat /\
      forall c c', core_alike c c' -> res_alike (line_step l toks c) (line_step l' toks' c');
  acts_fail : forall e pos, LexFails wr l e pos -> exists pos', LexFails wr l' e pos';
  acts_many : TooManyTokens wr l -> TooManyTokens wr l';
  acts_undef : LexUndefined l -> LexUndefined l' }.

Lemma finish_alike : forall e refs refs' f, Forall2 ref_alike refs refs' ->
  match finish e refs f, finish e refs' f with
  | FDone g, FDone g' => g = g'
  | FErr m r g, FErr m' r' g' => m = m' /\ fr_line_num r = fr_line_num r' /\ g = g'
  | _, _ => False
  end.
Proof.
  intros e refs refs' f H. revert f. induction H as [|r r' refs refs' (A & B & C & D & E) H IH]; intro f; cbn [finish]; [reflexivity|].
  rewrite <- A, <- B, <- C. destruct (lookup e (fr_label r)) as [v|]; [|auto].
  destruct (is_branch _); [destruct (branch_offset _ v)|]; first [apply IH|auto].
Qed.

Lemma close_alike : forall c c', core_alike c c' -> final_alike (close c) (close c').
Proof.
  intros c c' H. pose proof H as [A B C D E F]. unfold close. rewrite <- A, <- F. pose proof (finish_alike (c_env c) _ _ (c_file c) B) as K.
  destruct (finish (c_env c) (c_refs c) (c_file c)), (finish (c_env c) (c_refs c') (c_file c)); cbn [final_alike] in *; tauto.
Qed.

Lemma run_alike : forall lines lines', Forall2 acts_as lines lines' -> forall c c' r, core_alike c c' -> Run lines c r ->
  exists r', Run lines' c' r' /\ final_alike r r'.
Proof.
  intros lines lines' H. induction H as [|l l' lines lines' Hl H IH]; intros c c' r A R.
  - inversion R; subst. eexists. split; [constructor|]. apply close_alike, A.
  - pose proof A as [A1 A2 A3 A4 A5 A6].
    inversion R as [|? ? toks ? c1 ? HL HN HS HX|? ? toks ? c1 HL HN HS|? ? toks ? m pos HL HN HS|? ? ? e pos HF|? ? ? HF|? ? ? HF]; subst.
    + destruct (acts_lex _ _ Hl _ HL HN) as (toks' & L' & N' & S'). specialize (S' _ _ A). rewrite HS in S'.
      destruct (line_step l' toks' c') as [c1'| |] eqn:E; try (destruct S'; fail).
      destruct (IH _ _ _ S' HX) as (r' & R' & F). exists r'. split; [eapply Run_next; eauto|exact F].
    + destruct (acts_lex _ _ Hl _ HL HN) as (toks' & L' & N' & S'). specialize (S' _ _ A). rewrite HS in S'.
      destruct (line_step l' toks' c') as [|c1'|] eqn:E; try (destruct S'; fail).
      eexists. split; [eapply Run_finish; eauto|]. apply close_alike, S'.
    + destruct (acts_lex _ _ Hl _ HL HN) as (toks' & L' & N' & S'). specialize (S' _ _ A). rewrite HS in S'.
      destruct (line_step l' toks' c') as [| |m' pos'] eqn:E; try (destruct S'; fail).
      eexists. split; [eapply Run_err; eauto|]. cbn. auto.
    + destruct (acts_fail _ _ Hl _ _ HF) as (pos' & HF'). eexists. split; [eapply Run_lex; eauto|]. cbn. auto.
    + eexists. split; [eapply Run_many, acts_many; eauto|]. cbn. auto.
    + eexists. split; [eapply Run_undef, acts_undef; eauto|]. cbn. auto.
Qed.

Theorem gaia_alike : forall file src src', zlen src < FEW -> zlen src' < FEW ->
  Forall2 acts_as (lines_of src) (lines_of src') -> same_result file (gaia file src) (gaia file src').
Proof.
  intros file src src' B B' H. destruct (Run_total (lines_of src) core_init) as (r & R).
  destruct (run_alike _ _ H _ _ _ (alike_refl core_init) R) as (r' & R' & F).
  destruct (gaia_run file src r R) as [G|[_ K]]; [|lia].
  destruct (gaia_run file src' r' R') as [G'|[_ K]]; [|lia].
  destruct r as [c o|m n pos o|o|], r' as [c' o'|m' n' pos' o'|o'|]; try (destruct F; fail); cbn [settled final_alike] in *.
  - rewrite G, G'. destruct F as [[A1 A2 A3 A4 A5 A6] ->]. cbn. rewrite A1, A5. repeat split; auto. intro K; destruct K; reflexivity.
  - destruct G as (out & line & E & _ & _ & Rp). destruct G' as (out' & line' & E' & _ & _ & Rp'). destruct F as (-> & -> & ->).
    rewrite E, E'. cbn. repeat split; auto. { discriminate. } intros _. right. eauto 10.
  - rewrite G, G', F. cbn. repeat split; auto.
  - rewrite G, G'. exact I.
Qed.

(** ** Lines of the same tokens *)
Lemma emit_alike : forall c c' bs, core_alike c c' -> core_alike (c_emit c bs) (c_emit c' bs).
Proof. intros c c' bs [A B C D E F]. constructor; cbn; auto; congruence. Qed.

Lemma next_alike : forall c c', core_alike c c' -> core_alike (c_next_line c) (c_next_line c').
Proof. intros c c' [A B C D E F]. constructor; cbn; auto; congruence. Qed.

Lemma define_alike : forall c c' n v, core_alike c c' -> core_alike (c_define c n v) (c_define c' n v).
Proof. intros c c' n v [A B C D E F]. constructor; cbn; auto; congruence. Qed.

Lemma instr_alike : forall l l' toks toks' m op fl c c',
  core_alike c c' -> res_alike (instr_step l toks m op fl c) (instr_step l' toks' m op fl c').
Proof.
  intros l l' toks toks' m op fl c c' A. pose proof A as [A1 A2 A3 A4 A5 A6]. unfold instr_step. cbn zeta.
  destruct op as [[i t]|].
  2:{ destruct (flag_none m =? 0); [reflexivity|]. cbn. apply emit_alike, A. }
  assert (D : forall flag v, res_alike (if flag =? 0 then CErr "illegal addressing mode" None else CNext (c_emit c (code_bytes m flag v)))
                                       (if flag =? 0 then CErr "illegal addressing mode" None else CNext (c_emit c' (code_bytes m flag v)))).
  { intros flag v. destruct (flag =? 0); [reflexivity|]. cbn. apply emit_alike, A. }
  destruct t; try apply D. rewrite <- A1. destruct (lookup (c_env c) name) as [v|].
  - destruct (flag_known _ _ _ _ =? 0); [reflexivity|]. destruct (is_branch m); [|cbn; apply emit_alike, A].
    rewrite <- A3. destruct (branch_offset _ v); [cbn; apply emit_alike, A|reflexivity].
  - destruct (is_branch m || is_jump m); [|reflexivity]. destruct (flag_forward m fl =? 0); [reflexivity|].
    cbn [res_alike]. apply emit_alike. constructor; cbn; auto; try congruence.
    + apply Forall2_app; [exact A2|]. constructor; [|constructor]. repeat split; cbn; auto.
    + rewrite A6. reflexivity.
Qed.

Lemma step_alike : forall l l' toks toks' c c', map fst toks = map fst toks' ->
  core_alike c c' -> res_alike (line_step l toks c) (line_step l' toks' c').
Proof.
  intros l l' toks toks' c c' E A. pose proof A as [A1 A2 A3 A4 A5 A6]. unfold line_step. rewrite <- E, <- A1, <- A3.
  destruct (compile (map fst toks)) as [[|n|n i v|v| |[n|] m op fl]|[b i]]; cbn [res_alike].
  - apply next_alike, A.
  - destruct (lookup (c_env c) n); [reflexivity|]. cbn. apply next_alike, define_alike, A.
  - destruct (lookup (c_env c) n); [reflexivity|]. cbn. apply next_alike, define_alike, A.
  - apply next_alike. constructor; auto.
  - exact A.
  - destruct (lookup (c_env c) n); [reflexivity|]. apply instr_alike. apply define_alike, A.
  - apply instr_alike, A.
  - reflexivity.
Qed.

Lemma same_tokens_act : forall l l',
  (forall toks, Lexes wr true 0 l toks -> (List.length toks <= 8)%nat -> exists toks', Lexes wr true 0 l' toks' /\ map fst toks = map fst toks') ->
  (forall e pos, LexFails wr l e pos -> exists pos', LexFails wr l' e pos') ->
  (TooManyTokens wr l -> TooManyTokens wr l') -> (LexUndefined l -> LexUndefined l') -> acts_as l l'.
Proof.
  intros l l' H1 H2 H3 H4. constructor; auto. intros toks L N. destruct (H1 _ L N) as (toks' & L' & E).
  exists toks'. split; [exact L'|]. split.
  - rewrite <- (map_length fst toks'), <- E, map_length. exact N.
  - intros. apply step_alike; auto.
Qed.
