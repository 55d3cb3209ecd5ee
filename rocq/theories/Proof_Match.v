(** Proof_Match.v -- two sources whose lines correspond, up to a renaming of the labels and
    up to empty lines, give corresponding results. *)
From Verif Require Import Base Proof_Base Model_Opcode Model_Lexer Model_SymbolTable Model_ForwardRef Model_Generator Model_Main
  Spec_Isa Spec_Text Spec_Asm Spec_Report Spec_Alike Spec_Change Proof_Lex2 Proof_Fun Proof_Core Proof_Sim2 Proof_Run Prop_Same.

Section Match.
(** [rho] renames labels, [ok] relates the numbers of corresponding lines, [Q] the positions *)
Variable rho : text -> text.
Hypothesis rho_inj : forall a b, rho a = rho b -> a = b.
Variable ok : Z -> Z -> Prop.
Variable Q : option nat -> option nat -> Prop.

Definition ren_env (e : env) : env := map (fun p => (rho (fst p), snd p)) e.

Lemma lookup_ren : forall e n, lookup (ren_env e) (rho n) = lookup e n.
Proof.
  induction e as [|[k v] e IH]; intro n; [reflexivity|]. cbn [ren_env map lookup fst snd]. unfold ren_env in IH. rewrite IH.
  destruct (text_eqb k n) eqn:E.
  - apply text_eqb_eq in E. subst. assert (text_eqb (rho n) (rho n) = true) as -> by (apply text_eqb_eq; reflexivity). reflexivity.
  - destruct (text_eqb (rho k) (rho n)) eqn:E2; [|reflexivity]. apply text_eqb_eq, rho_inj in E2. subst.
    assert (text_eqb n n = true) by (apply text_eqb_eq; reflexivity). congruence.
Qed.

Definition ref_match (r r' : ForwardRef) : Prop :=
  fr_label r' = rho (fr_label r) /\ fr_instr r = fr_instr r' /\ fr_pc r = fr_pc r' /\
  fr_operand_status r = fr_operand_status r' /\ ok (fr_line_num r) (fr_line_num r') /\
  Q (Some (fr_operand_location r)) (Some (fr_operand_location r')).

Record core_match (c c' : core) : Prop := mkMatch {
  ma_env : c_env c' = ren_env (c_env c);
  ma_refs : Forall2 ref_match (c_refs c) (c_refs c');
  ma_pc : c_pc c = c_pc c';
  ma_total : c_total c = c_total c';
  ma_file : c_file c = c_file c' }.

Definition res_match (r r' : cres) : Prop :=
  match r, r' with
  | CNext c, CNext c' => core_match c c'
  | CFinish c, CFinish c' => core_match c c'
  | CErr m p, CErr m' p' => m = m' /\ Q p p'
  | _, _ => False
  end.

Definition final_match (f f' : final) : Prop :=
  match f, f' with
  | FinOk c o, FinOk c' o' => core_match c c' /\ o = o'
  | FinErr m n p o, FinErr m' n' p' o' => m = m' /\ ok n n' /\ Q p p' /\ o = o'
  | FinSilent o, FinSilent o' => o = o'
  | FinUndef, FinUndef => True
  | _, _ => False
  end.

(** the line [l'] acts as the line [l] *)
Record corresponds (l l' : text) : Prop := mkCorr {
  co_lex : forall toks, Lexes wr true 0 l toks -> (List.length toks <= 8)%nat ->
    exists toks', Lexes wr true 0 l' toks' /\ (List.length toks' <= 8)%nat /\
      forall c c', core_match c c' -> ok (c_line c) (c_line c') -> res_match (line_step l toks c) (line_step l' toks' c');
  co_fail : forall e pos, LexFails wr l e pos -> exists pos', LexFails wr l' e pos' /\ Q (Some pos) (Some pos');
  co_many : TooManyTokens wr l -> TooManyTokens wr l';
  co_undef : LexUndefined l -> LexUndefined l' }.

Definition empty_line (l : text) : Prop := Lexes wr true 0 l [].

(** corresponding lines, numbered from [n] and [n'] on; empty lines may be missing on either side *)
Inductive matched : Z -> Z -> list text -> list text -> Prop :=
| matched_nil n n' : matched n n' [] []
| matched_both n n' l l' ls ls' : ok n n' -> corresponds l l' -> matched (n + 1) (n' + 1) ls ls' -> matched n n' (l :: ls) (l' :: ls')
| matched_left n n' l ls ls' : empty_line l -> matched (n + 1) n' ls ls' -> matched n n' (l :: ls) ls'
| matched_right n n' l' ls ls' : empty_line l' -> matched n (n' + 1) ls ls' -> matched n n' ls (l' :: ls').

Lemma instr_line : forall l toks m op fl c c1, instr_step l toks m op fl c = CNext c1 -> c_line c1 = c_line c + 1.
Proof.
  intros l toks m op fl c c1 E. unfold instr_step in E. cbn zeta in E.
  repeat match type of E with context [match ?x with _ => _ end] => destruct x end; try discriminate; injection E as <-; reflexivity.
Qed.
Lemma step_line : forall l toks c c1, line_step l toks c = CNext c1 -> c_line c1 = c_line c + 1.
Proof.
  intros l toks c c1 E. unfold line_step in E. destruct (compile (map fst toks)) as [[|n|n i v|v| |[n|] m op fl]|[b i]]; try discriminate;
    try (injection E as <-; reflexivity); try (destruct (lookup (c_env c) n); [discriminate|]); try (injection E as <-; reflexivity);
    apply instr_line in E; exact E.
Qed.

Lemma finish_match : forall e refs refs' f, Forall2 ref_match refs refs' ->
  match finish e refs f, finish (ren_env e) refs' f with
  | FDone g, FDone g' => g = g'
  | FErr m r g, FErr m' r' g' => m = m' /\ ok (fr_line_num r) (fr_line_num r') /\
      Q (Some (fr_operand_location r)) (Some (fr_operand_location r')) /\ g = g'
  | _, _ => False
  end.
Proof.
  intros e refs refs' f H. revert f. induction H as [|r r' refs refs' (A & B & C & D & E & F) H IH]; intro f; cbn [finish]; [reflexivity|].
  rewrite A, lookup_ren, <- B, <- C. destruct (lookup e (fr_label r)) as [v|]; [|auto].
  destruct (is_branch _); [destruct (branch_offset _ v)|]; first [apply IH|auto].
Qed.

Lemma close_match : forall c c', core_match c c' -> final_match (close c) (close c').
Proof.
  intros c c' H. pose proof H as [A B C D E]. unfold close. rewrite A, <- E. pose proof (finish_match (c_env c) _ _ (c_file c) B) as K.
  destruct (finish (c_env c) (c_refs c) (c_file c)), (finish (ren_env (c_env c)) (c_refs c') (c_file c)); cbn [final_match] in *; tauto.
Qed.

Lemma next_match : forall c c', core_match c c' -> core_match (c_next_line c) (c_next_line c').
Proof. intros c c' [A B C D E]. constructor; cbn; auto. Qed.
Lemma emit_match : forall c c' bs, core_match c c' -> core_match (c_emit c bs) (c_emit c' bs).
Proof. intros c c' bs [A B C D E]. constructor; cbn; auto; congruence. Qed.
Lemma define_match : forall c c' n v, core_match c c' -> core_match (c_define c n v) (c_define c' (rho n) v).
Proof. intros c c' n v [A B C D E]. constructor; cbn [c_define c_env c_refs c_pc c_total c_file]; auto. rewrite A. reflexivity. Qed.

Lemma skip_left : forall c c', core_match c c' -> core_match (c_next_line c) c'.
Proof. intros c c' [A B C D E]. constructor; cbn; auto. Qed.
Lemma skip_right : forall c c', core_match c c' -> core_match c (c_next_line c').
Proof. intros c c' [A B C D E]. constructor; cbn; auto. Qed.

Lemma Run_skip : forall l ls c r, empty_line l -> Run (l :: ls) c r <-> Run ls (c_next_line c) r.
Proof.
  intros l ls c r E. split; intro R.
  - inversion R as [|? ? toks ? c1 ? HL HN HS HX|? ? toks ? c1 HL HN HS|? ? toks ? m pos HL HN HS|? ? ? e pos HF|? ? ? HF|? ? ? HF]; subst.
    + rewrite (Lexes_fun _ wr_fun _ _ _ _ _ HL E) in HS. cbn in HS. injection HS as <-. exact HX.
    + rewrite (Lexes_fun _ wr_fun _ _ _ _ _ HL E) in HS. discriminate.
    + rewrite (Lexes_fun _ wr_fun _ _ _ _ _ HL E) in HS. discriminate.
    + destruct (lexes_no_fail l [] e pos E (Nat.le_0_l _) HF).
    + destruct (lexes_no_many l [] E (Nat.le_0_l _) HF).
    + destruct (lexes_no_undef l [] E (Nat.le_0_l _) HF).
  - eapply Run_next; [exact E|apply Nat.le_0_l|reflexivity|exact R].
Qed.

Lemma run_match : forall n n' ls ls', matched n n' ls ls' -> forall c c' r, c_line c = n -> c_line c' = n' -> core_match c c' -> Run ls c r ->
  exists r', Run ls' c' r' /\ final_match r r'.
Proof.
  intros n n' ls ls' H. induction H as [n n'|n n' l l' ls ls' O Hl H IH|n n' l ls ls' El H IH|n n' l' ls ls' El H IH]; intros c c' r L L' A R.
  - inversion R; subst. eexists. split; [constructor|]. apply close_match, A.
  - subst n n'. pose proof A as [A1 A2 A3 A4 A5].
    inversion R as [|? ? toks ? c1 ? HL HN HS HX|? ? toks ? c1 HL HN HS|? ? toks ? m pos HL HN HS|? ? ? e pos HF|? ? ? HF|? ? ? HF]; subst.
    + destruct (co_lex _ _ Hl _ HL HN) as (toks' & L' & N' & S'). specialize (S' _ _ A O). rewrite HS in S'.
      destruct (line_step l' toks' c') as [c1'| |] eqn:E; try (destruct S'; fail).
      destruct (IH c1 c1' r) as (r' & R' & F); auto; [apply (step_line _ _ _ _ HS)|apply (step_line _ _ _ _ E)|].
      exists r'. split; [eapply Run_next; eauto|exact F].
    + destruct (co_lex _ _ Hl _ HL HN) as (toks' & L' & N' & S'). specialize (S' _ _ A O). rewrite HS in S'.
      destruct (line_step l' toks' c') as [|c1'|] eqn:E; try (destruct S'; fail).
      eexists. split; [eapply Run_finish; eauto|]. apply close_match, S'.
    + destruct (co_lex _ _ Hl _ HL HN) as (toks' & L' & N' & S'). specialize (S' _ _ A O). rewrite HS in S'.
      destruct (line_step l' toks' c') as [| |m' pos'] eqn:E; try (destruct S'; fail).
      eexists. split; [eapply Run_err; eauto|]. cbn in *. tauto.
    + destruct (co_fail _ _ Hl _ _ HF) as (pos' & HF' & K). eexists. split; [eapply Run_lex; eauto|]. cbn. auto.
    + eexists. split; [eapply Run_many, co_many; eauto|]. cbn. auto.
    + eexists. split; [eapply Run_undef, co_undef; eauto|]. cbn. auto.
  - apply Run_skip in R; [|exact El]. destruct (IH (c_next_line c) c' r) as (r' & R' & F); auto; [cbn; lia|apply skip_left, A|]; eauto.
  - destruct (IH c (c_next_line c') r) as (r' & R' & F); auto; [cbn; lia|apply skip_right, A|]. exists r'. split; [|exact F]. apply Run_skip; auto.
Qed.

(** ** Statements with renamed labels *)
Local Notation rtok := (rename_tok rho).
Definition ren_op (op : option (nat * tok)) : option (nat * tok) := option_map (fun p => (fst p, rtok (snd p))) op.
Definition ren_stmt (s : cstmt) : cstmt :=
  match s with
  | CLabel n => CLabel (rho n)
  | CConst n i v => CConst (rho n) i v
  | CInstr lab m op fl => CInstr (option_map rho lab) m (ren_op op) fl
  | _ => s
  end.
Definition ren_comp (c : comp) : comp := match c with inl s => inl (ren_stmt s) | inr e => inr e end.

Lemma find_op_ren : forall ts i, find_op i (map rtok ts) = ren_op (find_op i ts).
Proof. induction ts as [|t ts IH]; intro i; [reflexivity|]. cbn [map find_op]. destruct t; cbn [rename_tok operand_tok]; auto. Qed.
Lemma mnemonic_ren : forall ts m, last_mnemonic m (map rtok ts) = last_mnemonic m ts.
Proof. induction ts as [|t ts IH]; intro m; [reflexivity|]. cbn [map last_mnemonic]. destruct t; cbn [rename_tok]; auto. Qed.
Lemma existsb_ren : forall ty ts, existsb (is_ty ty) (map rtok ts) = existsb (is_ty ty) ts.
Proof. intros ty ts. induction ts as [|t ts IH]; [reflexivity|]. cbn [map existsb]. rewrite IH. destruct t; reflexivity. Qed.
Lemma flags_ren : forall ts, flags_of (map rtok ts) = flags_of ts.
Proof. intro ts. unfold flags_of. rewrite !existsb_ren. reflexivity. Qed.
Lemma cinstr_ren : forall lab ts, cinstr (option_map rho lab) (map rtok ts) = ren_stmt (cinstr lab ts).
Proof.
  intros lab ts. unfold cinstr. cbn [ren_stmt]. rewrite mnemonic_ren, flags_ren. destruct ts as [|t ts]; [reflexivity|].
  cbn [map tl]. rewrite find_op_ren. reflexivity.
Qed.
Lemma expr_ren : forall t, expr_tok (rtok t) = expr_tok t.
Proof. destruct t; reflexivity. Qed.

Lemma operand_ren : forall i ts s, comp_operand i (map rtok ts) (ren_stmt s) = ren_comp (comp_operand i ts s).
Proof.
  intros i ts s. destruct ts as [|t ts]; [reflexivity|]. destruct t; cbn [map rename_tok comp_operand expr_tok]; try reflexivity;
    repeat match goal with
    | |- context [map rtok ?l] => destruct l as [|[] ?]; cbn [map rename_tok comp_operand expr_tok]; try reflexivity
    end.
Qed.

Lemma compile_ren : forall ts, compile (map rtok ts) = ren_comp (compile ts).
Proof.
  intro ts. destruct ts as [|t ts]; [reflexivity|]. destruct t; cbn [map rename_tok]; try reflexivity.
  - destruct ts as [|u ts]; [reflexivity|]. destruct u; cbn [map rename_tok compile]; try reflexivity.
    + rewrite <- operand_ren. rewrite <- (cinstr_ren (Some name)). reflexivity.
    + destruct ts as [|[] ts]; try reflexivity. destruct ts; reflexivity.
    + destruct d; try reflexivity. destruct ts as [|[] ts]; try reflexivity. destruct ts; reflexivity.
  - cbn [compile]. rewrite <- operand_ren. rewrite <- (cinstr_ren None). reflexivity.
  - destruct ts as [|[] ts]; try reflexivity. cbn [map rename_tok compile]. destruct ts as [|[] ts]; try reflexivity. destruct ts; reflexivity.
  - destruct d; try reflexivity.
    + destruct ts as [|[] ts]; try reflexivity. cbn [map rename_tok compile]. destruct ts as [|[] ts]; try reflexivity. destruct ts; reflexivity.
    + destruct ts as [|[] ts]; try reflexivity. destruct ts; reflexivity.
    + destruct ts; reflexivity.
Qed.

Definition pos_match (toks toks' : list (tok * nat)) : Prop :=
  (forall i, Q (tok_pos toks i) (tok_pos toks' i)) /\
  (forall i, Q (Some (match tok_pos toks i with Some p => p | None => O end)) (Some (match tok_pos toks' i with Some p => p | None => O end))) /\
  Q None None.

Lemma instr_match : forall l l' toks toks' m op fl c c', pos_match toks toks' -> ok (c_line c) (c_line c') ->
  core_match c c' -> res_match (instr_step l toks m op fl c) (instr_step l' toks' m (ren_op op) fl c').
Proof.
  intros l l' toks toks' m op fl c c' (P1 & P2 & P3) O A. pose proof A as [A1 A2 A3 A4 A5]. unfold instr_step. cbn zeta.
  assert (D : forall flag v, res_match (if flag =? 0 then CErr "illegal addressing mode" None else CNext (c_emit c (code_bytes m flag v)))
                                       (if flag =? 0 then CErr "illegal addressing mode" None else CNext (c_emit c' (code_bytes m flag v)))).
  { intros flag v. destruct (flag =? 0); [cbn; auto|]. cbn. apply emit_match, A. }
  destruct op as [[i t]|]; [|apply D]. cbn [ren_op option_map fst snd].
  destruct t; cbn [rename_tok]; try apply D. rewrite A1, lookup_ren. destruct (lookup (c_env c) name) as [v|].
  - destruct (flag_known _ _ _ _ =? 0); [cbn; auto|]. destruct (is_branch m); [|cbn; apply emit_match, A].
    rewrite <- A3. destruct (branch_offset _ v); [cbn; apply emit_match, A|cbn; auto].
  - destruct (is_branch m || is_jump m); [|cbn; auto]. destruct (flag_forward m fl =? 0); [cbn; auto|].
    cbn [res_match]. apply emit_match. constructor; cbn [c_env c_refs c_pc c_total c_file]; auto; try congruence.
    + apply Forall2_app; [exact A2|]. constructor; [|constructor]. repeat split; cbn; auto.
    + rewrite A5. reflexivity.
Qed.

Lemma step_match : forall l l' toks toks' c c', map fst toks' = map rtok (map fst toks) -> pos_match toks toks' ->
  ok (c_line c) (c_line c') -> core_match c c' -> res_match (line_step l toks c) (line_step l' toks' c').
Proof.
  intros l l' toks toks' c c' E P O A. pose proof A as [A1 A2 A3 A4 A5]. pose proof P as (P1 & P2 & P3). unfold line_step. rewrite E, compile_ren.
  destruct (compile (map fst toks)) as [[|n|n i v|v| |[n|] m op fl]|[b i]]; cbn [ren_comp ren_stmt option_map res_match]; rewrite ?A1, ?lookup_ren, <- ?A3.
  - apply next_match, A.
  - destruct (lookup (c_env c) n); [cbn; auto|]. cbn [res_match]. apply next_match, define_match, A.
  - destruct (lookup (c_env c) n); [cbn; auto|]. cbn [res_match]. apply next_match, define_match, A.
  - apply next_match. constructor; auto.
  - exact A.
  - destruct (lookup (c_env c) n); [cbn; auto|]. apply instr_match; auto. apply define_match, A.
  - apply instr_match; auto.
  - auto.
Qed.

Lemma tokens_correspond : forall l l' toks toks', Lexes wr true 0 l toks -> (List.length toks <= 8)%nat ->
  Lexes wr true 0 l' toks' -> (List.length toks' <= 8)%nat -> map fst toks' = map rtok (map fst toks) -> pos_match toks toks' -> corresponds l l'.
Proof.
  intros l l' toks toks' L N L' N' E P. constructor.
  - intros t Lt _. rewrite (Lexes_fun _ wr_fun _ _ _ _ _ Lt L). exists toks'. repeat split; auto. intros. apply step_match; auto.
  - intros e pos F. destruct (lexes_no_fail _ _ _ _ L N F).
  - intro F. destruct (lexes_no_many _ _ L N F).
  - intro F. destruct (lexes_no_undef _ _ L N F).
Qed.
End Match.
