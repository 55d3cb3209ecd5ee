(** Proof_At.v -- the first line of a file that is not accepted, and the state of the
    assembler in front of any line. *)
From Verif Require Import Base Proof_Base Model_Opcode Model_Error Model_Lexer Model_SymbolTable
  Model_Parser Model_ForwardRef Model_Generator Model_Main Spec_Isa Spec_Text Spec_Asm Spec_Link Spec_Report
  Spec_Grammar Proof_Opcode Proof_Chars Proof_Error Proof_Lex1 Proof_Lex2 Proof_Core Proof_Parse Proof_Sim1 Prop_Table
  Proof_Sim2 Proof_Run Proof_Source Proof_Modes Spec_Diag Proof_Diag Proof_Whole Proof_Ref Proof_Image Proof_Grammar.

(** ** Lexical errors do not depend on what follows a NUL, nor on the newline *)
Lemma colon_cstring : forall s, colon_next s -> colon_next (cstring s).
Proof. intros s (s' & ->). rewrite cstring_cons by discriminate. eexists; reflexivity. Qed.

Lemma colon_newline : forall s, colon_next s -> colon_next (s ++ [ch_nl]).
Proof. intros s (s' & ->). eexists; reflexivity. Qed.

Lemma delimited_newline : forall s, delimited s -> delimited (s ++ [ch_nl]).
Proof. intros [|c s] H; [right; left; right; left; reflexivity|exact H]. Qed.

Lemma Reads_cstring : forall lit first off s l first' off' s', Reads lit first off s l first' off' s' ->
  Reads lit first off (cstring s) l first' off' (cstring s').
Proof.
  intros lit first off s l first' off' s' H. induction H.
  - constructor.
  - rewrite cstring_cons by (apply blank_not_nul; exact H). constructor 2; auto.
  - rewrite cstring_cons by (eapply punct_not_nul; eauto). constructor 3; auto.
  - rewrite cstring_app_plain by (eapply word_no_nul; eauto). constructor 4; auto.
    destruct H0 as [H0|(A & B & C)]; [left; apply delimited_cstring; exact H0|right; auto using colon_cstring].
  - rewrite cstring_app_plain by (eapply word_no_nul; eauto). rewrite cstring_cons by discriminate. constructor 5; auto.
Qed.

Lemma Reads_newline : forall lit first off s l first' off' s', Reads lit first off s l first' off' s' ->
  Reads lit first off (s ++ [ch_nl]) l first' off' (s' ++ [ch_nl]).
Proof.
  intros lit first off s l first' off' s' H. induction H.
  - constructor.
  - cbn [app]. constructor 2; auto.
  - cbn [app]. constructor 3; auto.
  - rewrite <- app_assoc. constructor 4; auto.
    destruct H0 as [H0|(A & B & C)]; [left; apply delimited_newline; exact H0|right; auto using colon_newline].
  - rewrite <- app_assoc. cbn [app]. constructor 5; auto.
Qed.

Lemma ident_no_nul : forall w, ident w -> ~ In ch_nul w.
Proof.
  intros w (c & cs & -> & Hc & Hcs) [E|E]; [apply (word_char_not_nul c); [left; exact Hc|auto]|].
  rewrite Forall_forall in Hcs. exact (word_char_not_nul _ (Hcs _ E) eq_refl).
Qed.

Lemma letters_no_nul : forall w, Forall letter w -> ~ In ch_nul w.
Proof. intros w H E. rewrite Forall_forall in H. exact (word_char_not_nul _ (or_introl (H _ E)) eq_refl). Qed.

Lemma digit_not_nul : forall b c d, digit_of b c d -> c <> ch_nul.
Proof. intros b c d Hd ->. inversion Hd as [? HH|? HH|? HH|? HH|? HH]; vm_compute in HH; destruct HH; congruence. Qed.

Lemma number_no_nul : forall b ds n, number b ds n -> ~ In ch_nul ds.
Proof. intros b ds n H. induction H; intros [K|K]; subst; try tauto; eapply digit_not_nul; eauto. Qed.

Lemma prefix_no_nul : forall b, ~ In ch_nul (prefix b).
Proof. intros [] K; cbn in K; try tauto; destruct K as [K|[]]; discriminate. Qed.

Lemma numeral_no_nul : forall w n, numeral w n -> ~ In ch_nul w.
Proof.
  intros w n (b & ds & -> & H) K. apply in_app_or in K. destruct K as [K|K]; [eapply prefix_no_nul; eauto|eapply number_no_nul; eauto].
Qed.

Lemma not_end_not_nul : forall c, ~ line_end c -> c <> ch_nul.
Proof. intros c H ->. apply H. do 3 right. left. reflexivity. Qed.

Lemma not_delim_not_nul : forall c, ~ delimiter c -> c <> ch_nul.
Proof. intros c H. apply not_end_not_nul. intro K. apply H. right; left; exact K. Qed.

Lemma bad_cstring : forall lit s e k, bad_token lit s e k -> bad_token lit (cstring s) e k.
Proof.
  intros lit s e k H. destruct H.
  - rewrite cstring_cons by (apply not_end_not_nul; assumption). constructor; assumption.
  - rewrite cstring_app_plain by apply prefix_no_nul. constructor; [assumption|].
    intros c s' d E. destruct s as [|x s]; [discriminate|]. cbn [cstring] in E.
    destruct (Ascii.eqb x ch_nul); [discriminate|]. injection E as <- _. eauto.
  - rewrite cstring_app_plain by apply prefix_no_nul. rewrite cstring_app_plain by (eapply number_no_nul; eauto).
    rewrite cstring_cons by (apply not_delim_not_nul; assumption). eapply bad_digit; eauto.
  - rewrite cstring_app_plain by (eapply numeral_no_nul; eauto). eapply bad_value; eauto using delimited_cstring.
  - rewrite cstring_app_plain by (apply ident_no_nul; assumption).
    rewrite cstring_cons by (apply not_delim_not_nul; assumption). constructor; assumption.
  - rewrite cstring_app_plain by (apply ident_no_nul; assumption). constructor; assumption.
  - rewrite cstring_cons by discriminate. rewrite cstring_app_plain by (apply letters_no_nul; assumption).
    rewrite cstring_cons by (apply not_delim_not_nul; assumption). constructor; assumption.
  - rewrite cstring_cons by discriminate. rewrite cstring_app_plain by (apply letters_no_nul; assumption).
    constructor; auto using delimited_cstring.
  - rewrite cstring_cons by discriminate. rewrite cstring_app_plain by (apply letters_no_nul; assumption).
    apply bad_directive_length; auto.
Qed.

Lemma newline_no_digit : forall b d, ~ digit_of b ch_nl d.
Proof. intros b d H. inversion H as [? HH|? HH|? HH|? HH|? HH]; vm_compute in HH; destruct HH; congruence. Qed.

Lemma bad_newline : forall lit s e k, bad_token lit s e k -> bad_token lit (s ++ [ch_nl]) e k.
Proof.
  intros lit s e k H. destruct H; cbn [app]; rewrite <- ?app_assoc; cbn [app].
  - constructor; assumption.
  - constructor; [assumption|]. intros c s' d E. destruct s as [|x s]; cbn [app] in E.
    + injection E as <- _. apply newline_no_digit.
    + injection E as <- _. eauto.
  - eapply bad_digit; eauto.
  - eapply bad_value; eauto using delimited_newline.
  - constructor; assumption.
  - constructor; assumption.
  - constructor; assumption.
  - constructor; auto using delimited_newline.
  - apply bad_directive_length; auto.
Qed.

Lemma LexFails_read : forall lit line read e pos, LexFails lit line e pos -> read_as line read ->
  LexFails lit (cstring read) e pos.
Proof.
  intros lit line read e pos (toks & f & o & s & k & R & L & B & ->) [-> | ->].
  - exists toks, f, o, (cstring (s ++ [ch_nl])), k. auto 8 using Reads_cstring, Reads_newline, bad_cstring, bad_newline.
  - exists toks, f, o, (cstring s), k. auto 8 using Reads_cstring, bad_cstring.
Qed.

Lemma LexFails_before_nul : forall lit line e pos, LexFails lit line e pos -> (pos <= List.length (before_nul line))%nat.
Proof.
  intros lit line e pos H. rewrite <- cstring_before_nul.
  eapply LexFails_pos. eapply LexFails_read; [exact H|right; reflexivity].
Qed.

Lemma Many_read : forall lit line read, TooManyTokens lit line -> read_as line read -> TooManyTokens lit (cstring read).
Proof.
  intros lit line read (toks & f & o & s & R & L) [-> | ->].
  - exists toks, f, o, (cstring (s ++ [ch_nl])). auto using Reads_cstring, Reads_newline.
  - exists toks, f, o, (cstring s). auto using Reads_cstring.
Qed.

Lemma Forall2_len : forall A B (R : A -> B -> Prop) l l', Forall2 R l l' -> List.length l = List.length l'.
Proof. intros A B R l l' H. induction H; cbn; congruence. Qed.

(** ** In front of a line *)
Section At.
Variables (file : text) (pre : list text) (line : text) (post : list text) (src : text)
          (p : list stmt) (st : dstate).
Hypothesis HS : source_of (pre ++ line :: post) src.
Hypothesis HM : Forall2 line_means pre p.
Hypothesis HA : state_after AsBuilt p = Some st.
Hypothesis HB : zlen src < FEW.

Let n := 1 + zlen pre.

Lemma at_core : exists c rd rest, DRel (pre ++ line :: post) n st c /\ read_as line rd /\
  nth_error (lines_of src) (Z.to_nat (n - 1)) = Some (cstring rd) /\
  nth_error (pre ++ line :: post) (Z.to_nat (n - 1)) = Some line /\
  forall r, Run (cstring rd :: rest) c r -> settled file (lines_of src) (gaia file src) r.
Proof.
  pose proof (chunks_source _ _ HS) as HRd.
  apply Forall2_app_inv_l in HRd. destruct HRd as (reads & rest0 & H1 & H2 & E).
  inversion H2 as [|? rd ? rest Hrd H3]; subst.
  destruct (run_prefix (pre ++ line :: post) pre p reads 1 (mkD 0 [] []) core_init (line :: post) st HM H1
              (DRel_init _)) as (c & HR & HP & HC).
  { exists []. split; reflexivity. }
  { exact HA. }
  assert (Z.to_nat (n - 1) = List.length pre) as Kn by (unfold n, zlen; lia).
  exists c, rd, (map cstring rest). split; [exact HR|]. split; [exact Hrd|]. split; [|split].
  - rewrite Kn. unfold lines_of. rewrite E, map_app. cbn [map].
    assert (List.length (map cstring reads) = List.length pre) as <-
      by (rewrite map_length; symmetry; exact (Forall2_len _ _ _ _ _ H1)).
    apply nth_app_mid.
  - rewrite Kn. apply nth_app_mid.
  - intros r Hr. destruct (gaia_run file src r) as [S|[_ K]]; [|exact S|lia].
    unfold lines_of. rewrite E, map_app. cbn [map]. apply HC. exact Hr.
Qed.

(** the report of an error at this line *)
Lemma at_error : forall m pos,
  match pos with Some q => (q <= List.length (before_nul line))%nat | None => True end ->
  (forall c rd rest, DRel (pre ++ line :: post) n st c -> read_as line rd ->
     nth_error (pre ++ line :: post) (Z.to_nat (n - 1)) = Some line ->
     Run (cstring rd :: rest) c (FinErr m n pos (c_file c))) ->
  exists o, gaia file src = Ret o /\ exit_code o = 1 /\
    Report file n m (before_nul line) pos (stdout o) /\ binary o = of_data (file_of (d_done st)).
Proof.
  intros m pos Hp H. destruct at_core as (c & rd & rest & HR & Hrd & Hn & Hl & HC).
  specialize (HC _ (H c rd rest HR Hrd Hl)). cbn [settled] in HC.
  destruct HC as (out & l & -> & _ & E & Rep). rewrite Hn in E. injection E as <-.
  eexists. split; [reflexivity|]. split; [reflexivity|]. cbn [stdout binary]. split.
  - eapply report_read; eauto.
  - rewrite (r_file _ _ _ _ HR). reflexivity.
Qed.

Theorem at_lex_error : forall e pos, LexFails wr line e pos ->
  exists o, gaia file src = Ret o /\ exit_code o = 1 /\
    Report file n (message_of_error e) (before_nul line) (Some pos) (stdout o) /\
    binary o = of_data (file_of (d_done st)).
Proof.
  intros e pos H. apply at_error; [eapply LexFails_before_nul; eauto|].
  intros c rd rest HR Hrd _. rewrite <- (r_line _ _ _ _ HR). apply Run_lex. eapply LexFails_read; eauto.
Qed.

Theorem at_syntax_error : forall toks i, Lexes wr true 0 line toks -> (List.length toks <= 8)%nat ->
  departs_at (map fst toks) i -> ~ trailing_junk (map fst toks) ->
  exists o, gaia file src = Ret o /\ exit_code o = 1 /\
    Report file n (syntax_message (map fst toks)) (before_nul line) (option_map snd (nth_error toks i)) (stdout o) /\
    binary o = of_data (file_of (d_done st)).
Proof.
  intros toks i HL HN HD HJ.
  assert (exists b, compile (map fst toks) = inr (b, i) /\
    (if b : bool then "illegal base" else "illegal syntax")%string = syntax_message (map fst toks)) as (b & C & Em).
  { destruct (compile (map fst toks)) as [c|[b j]] eqn:C.
    - exfalso. destruct (compile_accepts _ _ C) as [(s & L)|J]; [|exact (HJ J)].
      destruct HD as (D1 & D2 & D3 & D4). destruct (Nat.eq_dec i (List.length (map fst toks))) as [K|K]; [exact (D4 K s L)|].
      apply D3; [lia|]. exists (skipn (S i) (map fst toks)), s. rewrite firstn_skipn. exact L.
    - destruct (compile_departs _ _ _ C) as [D Em]. exists b. split; [|exact Em]. do 2 f_equal.
      eapply departs_unique; eauto. }
  apply at_error.
  - destruct (nth_error toks i) as [[t q]|] eqn:E; [|exact I]. cbn [option_map snd].
    apply nth_error_In in E. apply Lexes_cstring in HL. pose proof (Lexes_solid _ _ _ _ _ HL E) as S.
    destruct (solid_visible _ _ S) as [_ Le]. rewrite <- cstring_before_nul. lia.
  - intros c rd rest HR Hrd _. rewrite <- (r_line _ _ _ _ HR).
    eapply Run_err; [eapply Lexes_read; eauto|exact HN|]. unfold line_step. rewrite C, Em. reflexivity.
Qed.

Theorem at_semantic_error : forall toks s m w, Lexes literal16 true 0 line toks -> Line (map fst toks) s ->
  diag_stmt AsBuilt n st s = inr (m, w) ->
  exists o, gaia file src = Ret o /\ exit_code o = 1 /\
    Report file n m (before_nul line) (place_offset toks w) (stdout o) /\
    binary o = of_data (file_of (d_done st)).
Proof.
  intros toks s m w HL HG HD. apply at_error.
  - destruct (place_offset toks w) as [q|] eqn:E; [|exact I]. eapply place_le; eauto.
  - intros c rd rest HR Hrd Hl. rewrite <- (r_line _ _ _ _ HR).
    pose proof (line_diag _ (cstring rd) line toks n st c s HR Hl HL HG) as LD.
    eapply Run_err; [eapply Lexes_read; [apply Lexes_wr; exact HL|exact Hrd]
      |rewrite <- (map_length fst toks); eapply Line_short; eauto|].
    destruct s; try (rewrite HD in LD; exact LD). discriminate.
Qed.

Theorem at_too_many : TooManyTokens wr line ->
  gaia file src = Ret (mkOutcome 1 [] (of_data (file_of (d_done st)))).
Proof.
  intro H. destruct at_core as (c & rd & rest & HR & Hrd & Hn & Hl & HC).
  assert (R : Run (cstring rd :: rest) c (FinSilent (c_file c))) by (apply Run_many; eapply Many_read; eauto).
  specialize (HC _ R). cbn [settled] in HC. rewrite HC, (r_file _ _ _ _ HR). reflexivity.
Qed.
End At.

(** ** The state of the program after some accepted lines *)
Lemma lines_sim : forall file all lines p reads n sd c done st post sd',
  Forall2 line_means lines p -> Forall2 read_as lines reads ->
  Rel file st c -> Bnd done c -> DRel all n sd c -> part all n (lines ++ post) -> n = 1 + zlen done ->
  accepts AsBuilt n sd p = Some sd' ->
  zlen done + zlen lines < FEW ->
  exists st' c', run_lines no_failure reads st = Ret (Finish st') /\ Rel file st' c' /\
    Bnd (done ++ map cstring reads) c' /\ DRel all (n + zlen lines) sd' c'.
Proof.
  intros file all lines p reads n sd c done st post sd' H. revert reads n sd c done st.
  induction H as [|l s lines p (toks & HL & HG) H IH]; intros reads n sd c done st HRd HR HB HD HP Hn HA HF.
  - inversion HRd; subst. cbn in HA. injection HA as <-. exists st, c. cbn [run_lines map]. rewrite app_nil_r, Z.add_0_r. auto.
  - inversion HRd as [|? rd ? rds Hrd HRd']; subst. cbn [app] in HP.
    pose proof (line_diag all (cstring rd) l toks _ sd c s HD (part_nth _ _ _ _ HP) HL HG) as LD.
    assert (exists st1, diag_stmt AsBuilt (1 + zlen done) sd s = inl st1 /\ accepts AsBuilt (1 + zlen done + 1) st1 p = Some sd' /\ s <> SEnd) as (st1 & E1 & E2 & Ns).
    { destruct s; cbn [accepts] in HA; try discriminate;
        match type of HA with match ?d with _ => _ end = _ => destruct d as [st1|] eqn:E1 end; try discriminate;
        exists st1; repeat split; auto; discriminate. }
    assert (exists c1, line_step (cstring rd) toks c = CNext c1 /\ DRel all (1 + zlen done + 1) st1 c1) as (c1 & Es & HR1).
    { destruct s; try congruence; rewrite E1 in LD; exact LD. }
    assert (HL2 : Lexes wr true 0 (cstring rd) toks) by (eapply Lexes_read; [apply Lexes_wr; exact HL|exact Hrd]).
    assert (HN : (List.length toks <= 8)%nat) by (rewrite <- (map_length fst toks); eapply Line_short; eauto).
    pose proof (Proof_Sim4.process_line_sim file done (cstring rd) toks st c HR HB HL2 HN) as Sim.
    rewrite Es in Sim.
    destruct Sim as [c2 st2 Q1 Q2 R2 B2|c2 st2 Q1 Q2 R2 B2|m2 p2 st2 out Q1 Q2 _ Rep _|[_ Hl]]; try discriminate.
    2:{ unfold zlen in HF, Hl. lia. }
    injection Q1 as <-.
    destruct (IH rds (1 + zlen done + 1) st1 c1 (done ++ [cstring rd]) st2) as (st' & c' & A & B & C & D); auto.
    + eapply part_next; eauto.
    + rewrite zlen_app. unfold zlen. cbn [List.length]. lia.
    + rewrite zlen_app. unfold zlen in *. cbn [List.length] in *. lia.
    + exists st', c'. cbn [run_lines]. change (no_failure (st_line_num st)) with alloc_all. rewrite Q2. cbn [bind].
      split; [exact A|]. split; [exact B|]. cbn [map]. rewrite <- app_assoc in C. split; [exact C|].
      replace (1 + zlen done + zlen (l :: lines)) with (1 + zlen done + 1 + zlen lines); [exact D|].
      unfold zlen. cbn [List.length]. lia.
Qed.

Theorem state_of_program : forall file lines src p sd, source_of lines src -> Forall2 line_means lines p ->
  zlen src < FEW -> state_after AsBuilt p = Some sd ->
  exists st, run_lines no_failure (chunks src) (init_state file) = Ret (Finish st) /\
    st_pc st = d_addr sd /\ st_line_num st = 1 + zlen lines /\ st_total st = total_size (d_done sd) /\
    st_out st = file_of (d_done sd) /\ tab_count (st_symtab st) = zlen (d_env sd) /\
    un_curr (st_unresolved st) = zlen (filter is_open (d_done sd)) /\
    forall l, search_symbol (st_symtab st) l = Ret (match lookup (d_env sd) l with Some v => v | None => ERROR_SYMBOL_NOT_FOUND end).
Proof.
  intros file lines src p sd HS HM HB HA. pose proof (chunks_source _ _ HS) as HRd.
  assert (zlen lines <= zlen src).
  { unfold zlen. rewrite (Forall2_len _ _ _ _ _ HRd). pose proof (chunks_length src). lia. }
  destruct (lines_sim file lines lines p (chunks src) 1 (mkD 0 [] []) core_init [] (init_state file) [] sd HM HRd)
    as (st & c & E & R & B & D); auto.
  - constructor; cbn; auto; [apply Proof_Table.tab_ok_init|apply Proof_Refs.refs_ok_init].
  - apply Bnd_init.
  - apply DRel_init.
  - exists []. rewrite app_nil_r. split; reflexivity.
  - cbn. lia.
  - exists st. destruct R as [Qt Qr Qp Ql Qn Qo Q8 Qf Qs]. destruct D as [De Dp Dl Dt Dr Df].
    split; [exact E|]. split; [congruence|]. split; [congruence|]. split; [congruence|]. split; [congruence|].
    split; [rewrite (Proof_Table.t_count _ _ Qt), De; reflexivity|]. split.
    + rewrite (Proof_Refs.u_curr _ _ Qr). unfold zlen. rewrite (Forall2_len _ _ _ _ _ Dr). reflexivity.
    + intro l. rewrite (Proof_Table.search_spec _ _ _ Qt), De. reflexivity.
Qed.

(** ** Lines that are not accepted *)
Lemma lines_stop : forall file all lines p reads n sd c done st post,
  Forall2 line_means lines p -> Forall2 read_as lines reads ->
  Rel file st c -> Bnd done c -> DRel all n sd c -> part all n (lines ++ post) -> n = 1 + zlen done ->
  accepts AsBuilt n sd p = None -> ~ In SEnd p -> zlen done + zlen lines < FEW ->
  exists st', run_lines no_failure reads st = Ret (Abort st').
Proof.
  intros file all lines p reads n sd c done st post H. revert reads n sd c done st.
  induction H as [|l s lines p (toks & HL & HG) H IH]; intros reads n sd c done st HRd HR HB HD HP Hn HA HE HF; [discriminate|].
  inversion HRd as [|? rd ? rds Hrd HRd']; subst. cbn [app] in HP.
  pose proof (line_diag all (cstring rd) l toks _ sd c s HD (part_nth _ _ _ _ HP) HL HG) as LD.
  assert (s <> SEnd) as Ns by (intros ->; apply HE; left; reflexivity).
  assert (accepts AsBuilt (1 + zlen done) sd (s :: p) =
    match diag_stmt AsBuilt (1 + zlen done) sd s with inl st1 => accepts AsBuilt (1 + zlen done + 1) st1 p | inr _ => None end) as K
    by (destruct s; try congruence; reflexivity).
  rewrite K in HA.
  assert (LD' : match diag_stmt AsBuilt (1 + zlen done) sd s with
    | inl st' => exists c', line_step (cstring rd) toks c = CNext c' /\ DRel all (1 + zlen done + 1) st' c'
    | inr (msg, w) => line_step (cstring rd) toks c = CErr msg (place_offset toks w) end)
    by (destruct s; try congruence; exact LD).
  assert (HL2 : Lexes wr true 0 (cstring rd) toks) by (eapply Lexes_read; [apply Lexes_wr; exact HL|exact Hrd]).
  assert (HN : (List.length toks <= 8)%nat) by (rewrite <- (map_length fst toks); eapply Line_short; eauto).
  pose proof (Proof_Sim4.process_line_sim file done (cstring rd) toks st c HR HB HL2 HN) as Sim.
  cbn [run_lines]. change (no_failure (st_line_num st)) with alloc_all.
  destruct (diag_stmt AsBuilt (1 + zlen done) sd s) as [st1|[msg w]].
  - destruct LD' as (c1 & Es & HR1). rewrite Es in Sim.
    destruct Sim as [c2 st2 Q1 Q2 R2 B2|c2 st2 Q1 Q2 R2 B2|m2 p2 st2 out Q1 Q2 _ Rep _|[_ Hl]]; try discriminate.
    2:{ unfold zlen in HF, Hl. lia. }
    injection Q1 as <-. rewrite Q2. cbn [bind].
    apply (IH rds (1 + zlen done + 1) st1 c1 (done ++ [cstring rd]) st2); auto.
    + eapply part_next; eauto.
    + rewrite zlen_app. unfold zlen. cbn [List.length]. lia.
    + intro Q. apply HE. right; exact Q.
    + rewrite zlen_app. unfold zlen in *. cbn [List.length] in *. lia.
  - rewrite LD' in Sim.
    destruct Sim as [c2 st2 Q1 Q2 R2 B2|c2 st2 Q1 Q2 R2 B2|m2 p2 st2 out Q1 Q2 _ Rep _|[_ Hl]]; try discriminate.
    2:{ unfold zlen in HF, Hl. lia. }
    rewrite Q2. cbn [bind]. eauto.
Qed.

Theorem state_stops : forall file lines src p, source_of lines src -> Forall2 line_means lines p ->
  zlen src < FEW -> ~ In SEnd p -> state_after AsBuilt p = None ->
  exists st, run_lines no_failure (chunks src) (init_state file) = Ret (Abort st).
Proof.
  intros file lines src p HS HM HB HE HA. pose proof (chunks_source _ _ HS) as HRd.
  assert (zlen lines <= zlen src).
  { unfold zlen. rewrite (Forall2_len _ _ _ _ _ HRd). pose proof (chunks_length src). lia. }
  apply (lines_stop file lines lines p (chunks src) 1 (mkD 0 [] []) core_init [] (init_state file) [] HM HRd); auto.
  - constructor; cbn; auto; [apply Proof_Table.tab_ok_init|apply Proof_Refs.refs_ok_init].
  - apply Bnd_init.
  - apply DRel_init.
  - exists []. rewrite app_nil_r. split; reflexivity.
  - cbn. lia.
Qed.
