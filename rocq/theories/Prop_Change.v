(** Prop_Change.v -- C48, C49, C50: renaming labels, inserting empty lines and writing the
    values of constants do not change the result. *)
From Verif Require Import Base Spec_Prog Proof_Base Model_Opcode Model_Lexer Model_SymbolTable Model_ForwardRef Model_Generator Model_Main
  Spec_Isa Spec_Text Spec_Asm Spec_Report Spec_Alike Spec_Change Proof_Opcode Proof_Chars Proof_Lex1 Proof_Lex2 Proof_Fun Proof_Core Proof_Sim2 Proof_Run
  Proof_Source Proof_Modes Proof_Whole Proof_Prog Proof_Check Proof_Alike Proof_Same Prop_Same Proof_Match Proof_Image.

(** ** C48: renaming *)
Lemma ends_app : forall k e e', ends e -> ends e' -> alike (k ++ e) (k ++ e').
Proof.
  induction k as [|d k IH]; intros e e' E E'; cbn [app].
  - apply (alike_end [] []); auto; constructor.
  - apply alike_char; auto.
Qed.

(** a line and the same line as it is read *)
Lemma line_alike_read : forall l rd, read_as l rd -> alike_line (cstring rd) l.
Proof.
  intros l rd R. apply alike_alike_line. destruct (cstring_split l) as (t & E & Et & _). rewrite E at 1.
  destruct (cstring_read _ _ R) as [K|K]; rewrite K.
  - rewrite <- (app_nil_r (cstring l)) at 1. apply ends_app; [exact I|exact Et].
  - apply ends_app; [right; left; reflexivity|exact Et].
Qed.

Lemma renamed_corresponds : forall rho, injective rho -> forall l l' rd rd', renamed rho l l' -> read_as l rd -> read_as l' rd' ->
  corresponds rho eq (fun _ _ => True) (cstring rd) (cstring rd').
Proof.
  intros rho Inj l l' rd rd' [(toks & toks' & L & N & L' & E)|[<- H]] R R'.
  - apply (tokens_correspond rho Inj _ _ _ _ toks toks'); auto.
    + eapply Lexes_read; eauto.
    + eapply Lexes_read; eauto.
    + rewrite <- (map_length fst toks'), E, !map_length. exact N.
    + repeat split; auto.
  - pose proof (alike_acts _ _ (alike_line_read l l rd rd' (alike_alike_line _ _ (alike_refl_text l)) R R')) as [A1 A2 A3 A4]. constructor; auto.
    + intros toks L N. exfalso. destruct (acts_lex _ _ (alike_acts _ _ (line_alike_read _ _ R)) _ L N) as (t' & L' & N' & _).
      apply H in L'. lia.
    + intros e pos F. destruct (A2 _ _ F) as (p & K). eauto.
Qed.

(** corresponding finals *)
Lemma ren_env_length : forall rho e, zlen (ren_env rho e) = zlen e.
Proof. intros rho e. unfold zlen, ren_env. rewrite map_length. reflexivity. Qed.

Theorem C48_rename : forall rho file lines lines' src src', injective rho ->
  source_of lines src -> source_of lines' src' -> small src -> small src' ->
  Forall2 (renamed rho) lines lines' -> same_result file (gaia file src) (gaia file src').
Proof.
  intros rho file lines lines' src src' Inj S S' B B' H.
  assert (M : matched rho eq (fun _ _ => True) 1 1 (lines_of src) (lines_of src')).
  { pose proof (chunks_source _ _ S) as C. pose proof (chunks_source _ _ S') as C'. unfold lines_of.
    revert C C'. generalize (chunks src) (chunks src') 1. clear - H Inj. induction H as [|l l' lines lines' H F IH]; intros cs cs' n C C'; inversion C; inversion C'; subst; cbn [map]; constructor; auto.
    eapply renamed_corresponds; eauto. }
  destruct (Run_total (lines_of src) core_init) as (r & R).
  destruct (run_match rho Inj _ _ _ _ _ _ M core_init core_init r eq_refl eq_refl) as (r' & R' & F); [|exact R|].
  { constructor; auto; constructor. }
  destruct (gaia_run file src r R) as [G|[_ K]]; [|apply small_few in B; lia].
  destruct (gaia_run file src' r' R') as [G'|[_ K]]; [|apply small_few in B'; lia].
  destruct r as [c o|m n pos o|o|], r' as [c' o'|m' n' pos' o'|o'|]; try (destruct F; fail); cbn [settled final_match] in *.
  - rewrite G, G'. destruct F as [[A1 A2 A3 A4 A5] ->]. cbn. rewrite A1, A4, ren_env_length. repeat split; auto. intro K; destruct K; reflexivity.
  - destruct G as (out & line & E & _ & _ & Rp). destruct G' as (out' & line' & E' & _ & _ & Rp'). destruct F as (-> & -> & _ & ->).
    rewrite E, E'. cbn. repeat split; auto. { discriminate. } intros _. right. eauto 10.
  - rewrite G, G', F. cbn. repeat split; auto.
  - rewrite G, G'. exact I.
Qed.

(** ** C49: empty lines *)
Lemma rename_id : forall ts, map (rename_tok (fun n => n)) ts = ts.
Proof. induction ts as [|t ts IH]; [reflexivity|]. cbn [map]. rewrite IH. destruct t; reflexivity. Qed.

Lemma same_corresponds : forall ok l, corresponds (fun n => n) ok eq l l.
Proof.
  intros ok l. constructor; auto.
  - intros toks L N. exists toks. repeat split; auto. intros c c' A O. apply step_match; auto.
    + symmetry. apply rename_id.
    + repeat split; auto.
  - eauto.
Qed.

Lemma idle_empty : forall l rd, idle l -> read_as l rd -> empty_line (cstring rd).
Proof.
  intros l rd (b & c & -> & B & C) R. eapply Lexes_read; [|exact R]. clear R. generalize 0%nat. induction B as [|x b X B IH]; intro off; cbn [app].
  - apply Lexes_end, comment_ends, C.
  - apply Lexes_blank; auto.
Qed.

Lemma matched_front : forall (ok : Z -> Z -> Prop) A X Y n, (forall i, n <= i < n + zlen A -> ok i i) ->
  matched (fun n => n) ok eq (n + zlen A) (n + zlen A) X Y -> matched (fun n => n) ok eq n n (A ++ X) (A ++ Y).
Proof.
  induction A as [|l A IH]; intros X Y n O M; cbn [app].
  - unfold zlen in M. cbn [List.length] in M. rewrite Z.add_0_r in M. exact M.
  - rewrite zlen_cons in *. pose proof (zlen_pos _ A). apply matched_both; [apply O; lia|apply same_corresponds|].
    apply IH; [intros i Hi; apply O; lia|]. replace (n + 1 + zlen A) with (n + (1 + zlen A)) by lia. exact M.
Qed.

Lemma matched_empty : forall (ok : Z -> Z -> Prop) E X Y n n', Forall empty_line E -> matched (fun n => n) ok eq n (n' + zlen E) X Y ->
  matched (fun n => n) ok eq n n' X (E ++ Y).
Proof.
  induction E as [|l E IH]; intros X Y n n' F M; cbn [app].
  - unfold zlen in M. cbn [List.length] in M. rewrite Z.add_0_r in M. exact M.
  - inversion F; subst. rewrite zlen_cons in M. apply matched_right; [assumption|]. apply IH; [assumption|].
    replace (n' + 1 + zlen E) with (n' + (1 + zlen E)) by lia. exact M.
Qed.

Lemma matched_rest : forall (ok : Z -> Z -> Prop) X n n', (forall i, 0 <= i < zlen X -> ok (n + i) (n' + i)) -> matched (fun n => n) ok eq n n' X X.
Proof.
  induction X as [|l X IH]; intros n n' O; constructor; try apply same_corresponds.
  - rewrite zlen_cons in O. pose proof (zlen_pos _ X). rewrite <- (Z.add_0_r n), <- (Z.add_0_r n'). apply O. lia.
  - apply IH. intros i Hi. rewrite <- !Z.add_assoc. apply O. rewrite zlen_cons. lia.
Qed.

Theorem C49_insert : forall file before es rest, Forall fits before -> Forall fits es -> Forall idle es ->
  small (join before ++ join es ++ rest) ->
  same_but_moved file (Z.of_nat (List.length before)) (Z.of_nat (List.length es)) (gaia file (join before ++ rest)) (gaia file (join before ++ join es ++ rest)).
Proof.
  intros file before es rest Fb Fe Id B'. fold (zlen before) (zlen es). set (k := zlen before). set (d := zlen es).
  assert (B : small (join before ++ rest)).
  { unfold small, zlen in *. rewrite !app_length in *. lia. }
  set (src := join before ++ rest) in *. set (src' := join before ++ join es ++ rest) in *.
  set (A := map cstring (map (fun l => l ++ [ch_nl]) before)). set (E := map cstring (map (fun l => l ++ [ch_nl]) es)). set (X := lines_of rest).
  assert (LA : zlen A = k) by (unfold zlen, A, k, zlen; rewrite !map_length; reflexivity).
  assert (LE : zlen E = d) by (unfold zlen, E, d, zlen; rewrite !map_length; reflexivity).
  assert (L : lines_of src = A ++ X) by (unfold lines_of, src; rewrite chunks_join, map_app by exact Fb; reflexivity).
  assert (L' : lines_of src' = A ++ E ++ X).
  { unfold lines_of, src'. rewrite chunks_join, map_app by exact Fb. rewrite chunks_join, map_app by exact Fe. reflexivity. }
  pose proof (zlen_pos _ es) as Pd. pose proof (zlen_pos _ before) as Pk. fold d in Pd. fold k in Pk.
  assert (M : matched (fun n => n) (fun n n' => n' = moved k d n) eq 1 1 (lines_of src) (lines_of src')).
  { rewrite L, L'. apply matched_front; [|apply matched_empty].
    - intros i Hi. unfold moved. destruct (Z.leb_spec i k); [reflexivity|lia].
    - unfold E. clear - Id. induction Id as [|l es H Id IH]; constructor; auto. eapply idle_empty; [exact H|left; reflexivity].
    - apply matched_rest. intros i Hi. unfold moved. destruct (Z.leb_spec (1 + zlen A + i) k); lia. }
  destruct (Run_total (lines_of src) core_init) as (r & R).
  destruct (run_match _ (fun _ _ H => H) _ _ _ _ _ _ M core_init core_init r eq_refl eq_refl) as (r' & R' & F); [|exact R|].
  { constructor; auto; constructor. }
  destruct (gaia_run file src r R) as [G|[_ K]]; [|apply small_few in B; lia].
  destruct (gaia_run file src' r' R') as [G'|[_ K]]; [|apply small_few in B'; lia].
  destruct r as [c o|m n pos o|o|], r' as [c' o'|m' n' pos' o'|o'|]; try (destruct F; fail); cbn [settled final_match] in *.
  - rewrite G, G'. destruct F as [[A1 A2 A3 A4 A5] ->]. cbn. rewrite A1, A4, ren_env_length. repeat split; auto. intro K; destruct K; reflexivity.
  - destruct G as (out & line & G & Pn & Nt & Rp). destruct G' as (out' & line' & G' & Pn' & Nt' & Rp'). destruct F as (-> & Mv & -> & ->).
    rewrite G, G'. cbn. repeat split; auto. { discriminate. } intros _. right. rewrite L in Nt. rewrite L' in Nt'.
    assert (line' = line); [|subst; eauto 10]. assert (Some line' = Some line) as K; [|congruence]. rewrite <- Nt, <- Nt'. subst n'. unfold moved in *.
    unfold zlen in LA, LE. destruct (Z.leb_spec n k) as [Hn|Hn].
    + rewrite !nth_error_app1 by lia. reflexivity.
    + rewrite (nth_error_app2 A (E ++ X)), (nth_error_app2 E X), (nth_error_app2 A X) by lia. f_equal. lia.
  - rewrite G, G', F. cbn. repeat split; auto.
  - rewrite G, G'. exact I.
Qed.

(** ** C50: constants *)
Lemma not_branch : forall m, is_branch_name m = false -> is_branch (str_to_mnemonic (T m)) = false.
Proof.
  intros m H. destruct (str_to_mnemonic_cases (T m)) as [(k & n & N & E & K)|[K _]]; rewrite K; [|reflexivity].
  destruct (branch_name _ _ N) as [-> _]. apply T_inj in E. subst. exact H.
Qed.

Definition knows (known : list (text * Z)) (c : core) : Prop := forall n v, In (n, v) known -> lookup (c_env c) n = Some v.

Lemma value_alike : forall known l l' toks toks' m i e e' t t' fl c c', core_alike c c' -> knows known c ->
  is_branch m = false -> inlined_expr known e e' -> Expr t e -> Expr t' e' ->
  res_alike (instr_step l toks m (Some (i, t)) fl c) (instr_step l' toks' m (Some (i, t')) fl c').
Proof.
  intros known l l' toks toks' m i e e' t t' fl c c' A K B H X X'. destruct H as [e|n v Hn].
  - assert (t = t') as -> by (destruct X; inversion X'; reflexivity). apply instr_alike, A.
  - inversion X; inversion X'; subst. unfold instr_step. cbn zeta. rewrite (K _ _ Hn), B.
    destruct (flag_known _ _ _ _ =? 0); [reflexivity|]. cbn. apply emit_alike, A.
Qed.

Lemma expr_flag : forall t e ty, Expr t e -> ty <> TOKEN_LABEL -> ty <> TOKEN_LITERAL -> is_ty ty t = false.
Proof.
  intros t e ty X N N'. unfold is_ty, ty_eqb. destruct X; cbn [type_of]; destruct (TokenType_eq_dec _ ty); congruence.
Qed.

Lemma operand_alike : forall known o o' ts ts' m front pre l l' toks toks' c c', core_alike c c' -> knows known c -> is_branch m = false ->
  inlined_operand known o o' -> Operand ts o -> Operand ts' o' ->
  (forall t, In t front -> operand_tok t = false) ->
  res_alike (instr_step l toks m (find_op 1 (front ++ ts)) (flags_of (pre ++ ts)) c)
            (instr_step l' toks' m (find_op 1 (front ++ ts')) (flags_of (pre ++ ts')) c').
Proof.
  intros known o o' ts ts' m front pre l l' toks toks' c c' A K B H O O' Fr.
  assert (FO : forall ts k, find_op k (front ++ ts) = find_op (k + List.length front) ts).
  { clear - Fr. induction front as [|t front IH]; intros ts k; cbn [app List.length]; [rewrite Nat.add_0_r; reflexivity|].
    cbn [find_op]. rewrite (Fr t (or_introl eq_refl)), IH by (intros; apply Fr; right; assumption). f_equal. lia. }
  rewrite !FO.
  assert (FL : flags_of (pre ++ ts') = flags_of (pre ++ ts)).
  { unfold flags_of. rewrite !existsb_app.
    assert (G : forall ty, ty <> TOKEN_LABEL -> ty <> TOKEN_LITERAL -> existsb (is_ty ty) ts' = existsb (is_ty ty) ts).
    { intros ty N N'. destruct H; inversion O; subst; inversion O'; subst; cbn [existsb]; try reflexivity;
      repeat (match goal with X : Expr ?t ?e |- context [is_ty ty ?t] => rewrite (expr_flag t e ty X N N') end); reflexivity. }
    rewrite !G by discriminate. reflexivity. }
  rewrite FL. destruct H; inversion O; subst; inversion O'; subst; cbn [find_op operand_tok];
    try (apply instr_alike, A);
    (match goal with X : Expr ?t ?e, X' : Expr ?t' ?e', H : inlined_expr known ?e ?e' |- _ =>
       assert (operand_tok t = true) as -> by (destruct X; reflexivity); assert (operand_tok t' = true) as -> by (destruct X'; reflexivity);
       eapply value_alike; eauto end).
Qed.

Lemma operand_compiles : forall i ts o s, Operand ts o -> comp_operand i ts s = inl s.
Proof. intros i ts o s H. destruct H; try reflexivity; destruct H; reflexivity. Qed.

Lemma inlined_step : forall known l l' toks toks' s s' c c', Line (map fst toks) s -> Line (map fst toks') s' -> inlined_stmt known s s' ->
  core_alike c c' -> knows known c -> res_alike (line_step l toks c) (line_step l' toks' c').
Proof.
  intros known l l' toks toks' s s' c c' H H' S A K. destruct S as [s|lab m o o' Br S].
  { eapply stmt_step; eauto. constructor. }
  pose proof (not_branch m Br) as Br'. pose proof A as [A1 A2 A3 A4 A5 A6]. unfold line_step.
  inversion H as [|? ? ? O Et| ? ? ? ? O Et| | | | | | |]; subst; inversion H' as [|? ? ? O' Et'| ? ? ? ? O' Et'| | | | | | |]; subst.
  - cbn [compile]. rewrite (operand_compiles _ _ _ _ O), (operand_compiles _ _ _ _ O'). unfold cinstr. cbn [tl last_mnemonic].
    assert (LM : forall ts o k, Operand ts o -> last_mnemonic k ts = k).
    { clear. intros ts o k P. destruct P; try reflexivity; destruct H; reflexivity. }
    rewrite (LM _ _ _ O), (LM _ _ _ O').
    apply (operand_alike known o o' l0 l1 _ [] [TMnemonic m]); auto. intros t [].
  - cbn [compile]. rewrite (operand_compiles _ _ _ _ O), (operand_compiles _ _ _ _ O'). unfold cinstr. cbn [tl last_mnemonic].
    assert (LM : forall ts o k, Operand ts o -> last_mnemonic k ts = k).
    { clear. intros ts o k P. destruct P; try reflexivity; destruct H; reflexivity. }
    rewrite (LM _ _ _ O), (LM _ _ _ O'), <- A1, <- A3. destruct (lookup (c_env c) n) eqn:Ln; [reflexivity|].
    apply (operand_alike known o o' l0 l1 _ [TMnemonic m] [TLabel n; TMnemonic m]); auto.
    + apply define_alike, A.
    + intros k v Hk. cbn [c_define c_env lookup]. destruct (text_eqb n k) eqn:E; [|apply K, Hk].
      apply text_eqb_eq in E. subst. rewrite (K _ _ Hk) in Ln. discriminate.
    + intros t [<- |[]]. reflexivity.
Qed.

(** what is known stays known *)
Lemma env_grows : forall l toks c c1, line_step l toks c = CNext c1 -> forall n v, lookup (c_env c) n = Some v -> lookup (c_env c1) n = Some v.
Proof.
  assert (I : forall l toks m op fl c c1, instr_step l toks m op fl c = CNext c1 -> c_env c1 = c_env c).
  { intros l toks m op fl c c1 E. unfold instr_step in E. cbn zeta in E.
    repeat match type of E with context [match ?x with _ => _ end] => destruct x end; try discriminate; injection E as <-; reflexivity. }
  assert (D : forall c k w n v, lookup (c_env c) k = None -> lookup (c_env c) n = Some v -> lookup ((k, w) :: c_env c) n = Some v).
  { intros c k w n v N H. cbn [lookup]. destruct (text_eqb k n) eqn:E; [|exact H]. apply text_eqb_eq in E. congruence. }
  intros l toks c c1 E n v H. unfold line_step in E. destruct (compile (map fst toks)) as [[|k|k i w|w| |[k|] m op fl]|[b i]]; try discriminate;
    try (injection E as <-; exact H); try (destruct (lookup (c_env c) k) eqn:Lk; [discriminate|]).
  - injection E as <-. cbn [c_next_line c_define c_env]. apply D; assumption.
  - injection E as <-. cbn [c_next_line c_define c_env]. apply D; assumption.
  - apply I in E. rewrite E. cbn [c_define c_env]. apply D; assumption.
  - apply I in E. rewrite E. exact H.
Qed.

Lemma const_known : forall l toks n v c c1, Line (map fst toks) (SConst n v) -> line_step l toks c = CNext c1 -> lookup (c_env c1) n = Some v.
Proof.
  intros l toks n v c c1 H E. unfold line_step in E.
  inversion H as [| | | |? ? Et|? ? Et|? ? Et| | |]; subst; rewrite <- Et in E; cbn [compile] in E; (destruct (lookup (c_env c) n); [discriminate|]); injection E as <-;
    cbn [c_next_line c_define c_env lookup]; rewrite text_eqb_refl; reflexivity.
Qed.

(** lines as they are read *)
Inductive inlines_read : list (text * Z) -> list text -> list text -> Prop :=
| ir_nil known : inlines_read known [] []
| ir_line known l l' toks toks' s s' ls ls' : Lexes wr true 0 l toks -> Lexes wr true 0 l' toks' -> Line (map fst toks) s -> Line (map fst toks') s' ->
    inlined_stmt known s s' -> inlines_read (and_known known s) ls ls' -> inlines_read known (l :: ls) (l' :: ls')
| ir_other known l l' ls ls' : acts_as l l' -> inlines_read known ls ls' -> inlines_read known (l :: ls) (l' :: ls').

Lemma run_inlined : forall known ls ls', inlines_read known ls ls' -> forall c c' r, core_alike c c' -> knows known c -> Run ls c r ->
  exists r', Run ls' c' r' /\ final_alike r r'.
Proof.
  intros known ls ls' H. induction H as [known|known l l' toks toks' s s' ls ls' L L' G G' S H IH|known l l' ls ls' Hl H IH]; intros c c' r A K R.
  - inversion R; subst. eexists. split; [constructor|]. apply close_alike, A.
  - pose proof A as [A1 A2 A3 A4 A5 A6].
    assert (N : (List.length toks <= 8)%nat). { pose proof (Line_short _ _ G). rewrite map_length in *. lia. }
    assert (N' : (List.length toks' <= 8)%nat). { pose proof (Line_short _ _ G'). rewrite map_length in *. lia. }
    pose proof (inlined_step known l l' toks toks' s s' c c' G G' S A K) as St.
    inversion R as [|? ? tk ? c1 ? HL HN HS HX|? ? tk ? c1 HL HN HS|? ? tk ? m pos HL HN HS|? ? ? e pos HF|? ? ? HF|? ? ? HF]; subst;
      try (rewrite (Lexes_fun _ wr_fun _ _ _ _ _ HL L) in HS; rewrite HS in St).
    + destruct (line_step l' toks' c') as [c1'| |] eqn:E; try (destruct St; fail).
      destruct (IH c1 c1' r) as (r' & R' & F); [exact St| |exact HX|].
      * intros n v Hn. assert (Old : In (n, v) known -> lookup (c_env c1) n = Some v) by (intro Hk; eapply env_grows; [exact HS|apply K, Hk]).
        destruct s; cbn [and_known] in Hn; auto. destruct Hn as [Hn|Hn]; [|auto]. injection Hn as -> ->. eapply const_known; eauto.
      * exists r'. split; [eapply Run_next; eauto|exact F].
    + destruct (line_step l' toks' c') as [|c1'|] eqn:E; try (destruct St; fail).
      eexists. split; [eapply Run_finish; eauto|]. apply close_alike, St.
    + destruct (line_step l' toks' c') as [| |m' pos'] eqn:E; try (destruct St; fail).
      eexists. split; [eapply Run_err; eauto|]. cbn. auto.
    + destruct (lexes_no_fail _ _ _ _ L N HF).
    + destruct (lexes_no_many _ _ L N HF).
    + destruct (lexes_no_undef _ _ L N HF).
  - pose proof A as [A1 A2 A3 A4 A5 A6].
    inversion R as [|? ? toks ? c1 ? HL HN HS HX|? ? toks ? c1 HL HN HS|? ? toks ? m pos HL HN HS|? ? ? e pos HF|? ? ? HF|? ? ? HF]; subst.
    + destruct (acts_lex _ _ Hl _ HL HN) as (toks' & L' & N' & S'). specialize (S' _ _ A). rewrite HS in S'.
      destruct (line_step l' toks' c') as [c1'| |] eqn:E; try (destruct S'; fail).
      destruct (IH c1 c1' r) as (r' & R' & F); [exact S'| |exact HX|].
      { intros n v Hn. eapply env_grows; [exact HS|apply K, Hn]. }
      exists r'. split; [eapply Run_next; eauto|exact F].
    + destruct (acts_lex _ _ Hl _ HL HN) as (toks' & L' & N' & S'). specialize (S' _ _ A). rewrite HS in S'.
      destruct (line_step l' toks' c') as [|c1'|] eqn:E; try (destruct S'; fail).
      eexists. split; [eapply Run_finish; eauto|]. apply close_alike, S'.
    + destruct (acts_lex _ _ Hl _ HL HN) as (toks' & L' & N' & S'). specialize (S' _ _ A). rewrite HS in S'.
      destruct (line_step l' toks' c') as [| |m' pos'] eqn:E; try (destruct S'; fail).
      eexists. split; [eapply Run_err; eauto|]. cbn. auto.
    + destruct (acts_fail _ _ Hl _ _ HF) as (pos' & HF'). eexists. split; [eapply Run_lex; eauto|]. cbn. auto.
    + eexists. split; [eapply Run_many, acts_many; eauto|]. cbn. auto.
    + eexists. split; [eapply Run_undef, acts_undef; eauto|]. cbn. auto.
Qed.

Theorem C50_constants : forall file lines lines' src src', source_of lines src -> source_of lines' src' -> small src -> small src' ->
  inlines [] lines lines' -> same_result file (gaia file src) (gaia file src').
Proof.
  intros file lines lines' src src' S S' B B' H.
  assert (M : inlines_read [] (lines_of src) (lines_of src')).
  { pose proof (chunks_source _ _ S) as C. pose proof (chunks_source _ _ S') as C'. unfold lines_of.
    revert C C'. generalize (chunks src) (chunks src'). clear - H.
    induction H as [known|known l l' s s' ls ls' (toks & L & G) (toks' & L' & G') St H IH|known l l' ls ls' Al H IH]; intros cs cs' C C'; inversion C; inversion C'; subst; cbn [map].
    - constructor.
    - apply (ir_line known _ _ toks toks' s s'); auto; eapply Lexes_read; eauto; apply Lexes_wr; assumption.
    - apply ir_other; auto. apply alike_acts. eapply alike_line_read; eauto. }
  destruct (Run_total (lines_of src) core_init) as (r & R).
  destruct (run_inlined _ _ _ M core_init core_init r (Proof_Alike.alike_refl _)) as (r' & R' & F); [intros n v []|exact R|].
  destruct (gaia_run file src r R) as [G|[_ K]]; [|apply small_few in B; lia].
  destruct (gaia_run file src' r' R') as [G'|[_ K]]; [|apply small_few in B'; lia].
  destruct r as [c o|m n pos o|o|], r' as [c' o'|m' n' pos' o'|o'|]; try (destruct F; fail); cbn [settled final_alike] in *.
  - rewrite G, G'. destruct F as [[A1 A2 A3 A4 A5 A6] ->]. cbn. rewrite A1, A5. repeat split; auto. intro K; destruct K; reflexivity.
  - destruct G as (out & line & E & _ & _ & Rp). destruct G' as (out' & line' & E' & _ & _ & Rp'). destruct F as (-> & -> & ->).
    rewrite E, E'. cbn. repeat split; auto. { discriminate. } intros _. right. eauto 10.
  - rewrite G, G', F. cbn. repeat split; auto.
  - rewrite G, G'. exact I.
Qed.

(** ** The hypotheses are met, and the edits do change the files *)
Ltac src_ok := split; [apply fitsb_ok; vm_compute; reflexivity|left; reflexivity].

Definition swap (a b n : text) : text := if text_eqb n a then b else if text_eqb n b then a else n.
Lemma swap_inj : forall a b, injective (swap a b).
Proof.
  intros a b x y. unfold swap.
  destruct (text_eqb x a) eqn:E1, (text_eqb y a) eqn:E2, (text_eqb x b) eqn:E3, (text_eqb y b) eqn:E4; intro H;
    repeat match goal with K : text_eqb _ _ = true |- _ => apply text_eqb_eq in K | K : text_eqb _ _ = false |- _ => apply text_eqb_neq in K end; congruence.
Qed.

Example C48_example : exists rho lines lines', injective rho /\ lines <> lines' /\ source_of lines (join lines) /\ source_of lines' (join lines') /\
  small (join lines) /\ small (join lines') /\ Forall2 (renamed rho) lines lines' /\
  exists o o', gaia (T "a.asm") (join lines) = Ret o /\ gaia (T "a.asm") (join lines') = Ret o' /\ exit_code o = 0 /\ binary o = binary o' /\ binary o <> [].
Proof.
  exists (swap (T "LOOP") (T "AGAIN")), [T "LOOP: DEX"; T " BNE LOOP"; T " JMP OUT"; T "OUT RTS"], [T "AGAIN: DEX"; T " BNE AGAIN"; T " JMP OUT"; T "OUT RTS"].
  split; [apply swap_inj|]. split; [discriminate|]. split; [src_ok|]. split; [src_ok|]. do 2 (split; [unfold small; vm_compute; reflexivity|]).
  split.
  { Ltac ren := left; do 2 eexists; split; [apply Lexes_wr, tokens_ok; vm_compute; reflexivity|]; split; [cbn; lia|];
      split; [apply Lexes_wr, tokens_ok; vm_compute; reflexivity|vm_compute; reflexivity].
    constructor; [ren|]. constructor; [ren|]. constructor; [ren|]. constructor; [ren|constructor]. }
  do 2 eexists. split; [vm_compute; reflexivity|]. split; [vm_compute; reflexivity|]. repeat split; discriminate.
Qed.

Lemma idle_blank : forall n c, comment c -> idle (repeat ch_sp n ++ c).
Proof.
  intros n c C. exists (repeat ch_sp n), c. split; [reflexivity|]. split; [|exact C].
  apply Forall_forall. intros x Hx. apply repeat_spec in Hx. left. exact Hx.
Qed.

Example C49_example : exists before es rest, Forall fits before /\ Forall fits es /\ Forall idle es /\ es <> [] /\ small (join before ++ join es ++ rest) /\
  exists o o' n m line pos, gaia (T "a.asm") (join before ++ rest) = Ret o /\ gaia (T "a.asm") (join before ++ join es ++ rest) = Ret o' /\
  exit_code o = 1 /\ Report (T "a.asm") n m line pos (stdout o) /\ Report (T "a.asm") (n + 2) m line pos (stdout o').
Proof.
  exists [T "L NOP"], [[]; T "  ; note"], (T " LDA #" ++ [ch_nl]).
  assert (F : Forall fits [T "L NOP"]) by (apply fitsb_ok; vm_compute; reflexivity). split; [exact F|].
  assert (F' : Forall fits [[]; T "  ; note"]) by (apply fitsb_ok; vm_compute; reflexivity). split; [exact F'|].
  assert (I : Forall idle [[]; T "  ; note"]).
  { constructor; [apply (idle_blank 0 []); left; reflexivity|]. constructor; [|constructor]. apply (idle_blank 2 (T "; note")). right. eexists. reflexivity. }
  split; [exact I|]. split; [discriminate|].
  assert (B : small (join [T "L NOP"] ++ join [[]; T "  ; note"] ++ (T " LDA #" ++ [ch_nl]))) by (unfold small; vm_compute; reflexivity).
  split; [exact B|].
  assert (Sh : forall t, shown_as (t ++ T "#" ++ [ch_nl]) (t ++ T "#")).
  { intro t. exists [ch_nl]. split; [rewrite <- app_assoc; reflexivity|]. split; [constructor; [right; right; left; reflexivity|constructor]|].
    exists t, "#"%char. split; [reflexivity|]. intros [K|[K|[K|K]]]; discriminate. }
  do 2 eexists. exists 2, "illegal syntax"%string, (T " LDA " ++ T "#" ++ [ch_nl]). eexists. split; [vm_compute; reflexivity|]. split; [vm_compute; reflexivity|].
  split; [reflexivity|]. split.
  - exists (T " LDA " ++ T "#"). split; [apply Sh|]. instantiate (1 := None). vm_compute. reflexivity.
  - exists (T " LDA " ++ T "#"). split; [apply Sh|]. vm_compute. reflexivity.
Qed.

Example C50_example : exists lines lines', lines <> lines' /\ source_of lines (join lines) /\ source_of lines' (join lines') /\
  small (join lines) /\ small (join lines') /\ inlines [] lines lines' /\
  exists o o', gaia (T "a.asm") (join lines) = Ret o /\ gaia (T "a.asm") (join lines') = Ret o' /\ exit_code o = 0 /\ binary o = binary o' /\ binary o <> [].
Proof.
  exists [T "ZP = $10"; T "BIG .EQU $1234"; T " LDA #ZP"; T "L STA BIG,X"; T " JMP (BIG)"], [T "ZP = $10"; T "BIG .EQU $1234"; T " LDA #16"; T "L STA $1234,X"; T " JMP ($1234)"].
  split; [discriminate|]. split; [src_ok|]. split; [src_ok|]. do 2 (split; [unfold small; vm_compute; reflexivity|]). split.
  { eapply inlined_line; [apply statement_ok; vm_compute; reflexivity|apply statement_ok; vm_compute; reflexivity|apply inlined_itself|].
    eapply inlined_line; [apply statement_ok; vm_compute; reflexivity|apply statement_ok; vm_compute; reflexivity|apply inlined_itself|].
    eapply inlined_line; [apply statement_ok; vm_compute; reflexivity|apply statement_ok; vm_compute; reflexivity|apply inlined_instr; [reflexivity|]; constructor; constructor; cbn; auto|].
    eapply inlined_line; [apply statement_ok; vm_compute; reflexivity|apply statement_ok; vm_compute; reflexivity|apply inlined_instr; [reflexivity|]; constructor; constructor; cbn; auto|].
    eapply inlined_line; [apply statement_ok; vm_compute; reflexivity|apply statement_ok; vm_compute; reflexivity|apply inlined_instr; [reflexivity|]; constructor; constructor; cbn; auto|].
    constructor. }
  do 2 eexists. split; [vm_compute; reflexivity|]. split; [vm_compute; reflexivity|]. repeat split; discriminate.
Qed.
