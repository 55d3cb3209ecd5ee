(** Proof_Whole.v -- whole runs on files whose lines are in the documented grammar. *)
From Verif Require Import Base Proof_Base Model_Opcode Model_Error Model_Lexer Model_SymbolTable
  Model_Parser Model_ForwardRef Model_Generator Model_Main Spec_Isa Spec_Text Spec_Asm Spec_Link Spec_Report
  Proof_Opcode Proof_Chars Proof_Error Proof_Lex1 Proof_Lex2 Proof_Core Proof_Parse Proof_Sim1 Prop_Table
  Proof_Sim2 Proof_Run Proof_Source Proof_Modes Spec_Diag Proof_Diag.

(** ** The literal rules *)
Lemma literal16_wr : forall w n v, numeral w n -> literal16 n v -> wr n v.
Proof.
  intros w n v (b & ds & _ & Hn) [-> H]. pose proof (number_nonneg _ _ _ Hn).
  assert (0xFFFF < 2 ^ 64) by reflexivity.
  split; [rewrite Z.mod_small by lia; reflexivity|lia].
Qed.

Lemma word_wr : forall w t, word literal16 w t -> word wr w t.
Proof.
  intros w t H. destruct H; [econstructor 1|econstructor 2|econstructor 3]; eauto using literal16_wr.
Qed.

Lemma Lexes_wr : forall first off s l, Lexes literal16 first off s l -> Lexes wr first off s l.
Proof.
  intros first off s l H. induction H; [constructor 1|constructor 2|constructor 3|constructor 4|econstructor 5]; eauto using word_wr.
Qed.

(** ** NUL and newline *)
Lemma cstring_before_nul : forall s, cstring s = before_nul s.
Proof. induction s as [|c s IH]; [reflexivity|]. cbn [cstring before_nul]. rewrite IH. reflexivity. Qed.

Lemma cstring_app_plain : forall w s, ~ In ch_nul w -> cstring (w ++ s) = w ++ cstring s.
Proof.
  induction w as [|c w IH]; intros s H; [reflexivity|]. cbn [app cstring].
  destruct (Ascii.eqb c ch_nul) eqn:E.
  - apply Ascii.eqb_eq in E. subst. exfalso. apply H. left; reflexivity.
  - rewrite IH; [reflexivity|]. intro K. apply H. right; exact K.
Qed.

Lemma word_char_not_nul : forall c, word_char c -> c <> ch_nul.
Proof. intros c H E. subst. destruct H as [[H|H]|[H|H]]; vm_compute in H; try discriminate; destruct H; try congruence; lia. Qed.

Lemma word_no_nul : forall lit w t, word lit w t -> ~ In ch_nul w.
Proof.
  intros lit w t H. destruct H as [w t (c & cs & -> & Hc & Hcs) _ _|w n v (b & ds & -> & Hn) _|w d Hd].
  - intros [E|E]; [apply (word_char_not_nul c); [left; exact Hc|auto]|].
    rewrite Forall_forall in Hcs. exact (word_char_not_nul _ (Hcs _ E) eq_refl).
  - intro K. apply in_app_or in K. destruct K as [K|K].
    + destruct b; cbn in K; try tauto; destruct K as [K|[]]; discriminate.
    + assert (forall c d, digit_of b c d -> c <> ch_nul) as D.
      { intros c d Hd ->. inversion Hd as [? HH|? HH|? HH|? HH|? HH]; vm_compute in HH; destruct HH; congruence. }
      clear -K Hn D. induction Hn; cbn in K; destruct K as [K|K]; subst; try tauto; eapply D; eauto.
  - intro K. assert (In (upper ch_nul) (map upper w)) as K2 by (apply in_map; exact K).
    destruct Hd as [E|E|E|E]; rewrite E in K2; vm_compute in K2; intuition discriminate.
Qed.

Lemma punct_not_nul : forall c t, punct c t -> c <> ch_nul.
Proof. intros c t [H|[H|[H|[H|[H|H]]]]]; injection H as -> _; discriminate. Qed.

Lemma blank_not_nul : forall c, blank c -> c <> ch_nul.
Proof. intros c [-> | ->]; discriminate. Qed.

Lemma cstring_cons : forall c s, c <> ch_nul -> cstring (c :: s) = c :: cstring s.
Proof. intros c s H. cbn [cstring]. apply Ascii.eqb_neq in H. rewrite H. reflexivity. Qed.

Lemma delimited_cstring : forall s, delimited s -> delimited (cstring s).
Proof. intros [|c s] H; [exact I|]. cbn [cstring]. destruct (Ascii.eqb c ch_nul); [exact I|exact H]. Qed.

Lemma ends_cstring : forall s, ends s -> ends (cstring s).
Proof. intros [|c s] H; [exact I|]. cbn [cstring]. destruct (Ascii.eqb c ch_nul); [exact I|exact H]. Qed.

Lemma Lexes_cstring : forall lit first off s l, Lexes lit first off s l -> Lexes lit first off (cstring s) l.
Proof.
  intros lit first off s l H. induction H.
  - constructor. apply ends_cstring. exact H.
  - rewrite cstring_cons by (apply blank_not_nul; exact H). constructor 2; auto.
  - rewrite cstring_cons by (eapply punct_not_nul; eauto). constructor 3; auto.
  - rewrite cstring_app_plain by (eapply word_no_nul; eauto). constructor 4; auto using delimited_cstring.
  - rewrite cstring_app_plain by (eapply word_no_nul; eauto). rewrite cstring_cons by discriminate. constructor 5; auto.
Qed.

Lemma Lexes_newline : forall lit first off s l, Lexes lit first off s l -> Lexes lit first off (s ++ [ch_nl]) l.
Proof.
  intros lit first off s l H. induction H.
  - constructor. destruct s; [right; left; reflexivity|exact H].
  - cbn [app]. constructor 2; auto.
  - cbn [app]. constructor 3; auto.
  - rewrite <- app_assoc. constructor 4; auto. destruct s; [right; left; right; left; reflexivity|assumption].
  - rewrite <- app_assoc. cbn [app]. constructor 5; auto.
Qed.

Lemma Lexes_read : forall lit line read l, Lexes lit true 0 line l -> read_as line read ->
  Lexes lit true 0 (cstring read) l.
Proof. intros lit line read l H [-> | ->]; apply Lexes_cstring; auto using Lexes_newline. Qed.

(** ** Reports do not depend on the newline *)
Lemma cstring_nul_app : forall s t, In ch_nul s -> cstring (s ++ t) = cstring s.
Proof.
  induction s as [|c s IH]; intros t H; [destruct H|]. cbn [app cstring].
  destruct (Ascii.eqb c ch_nul) eqn:E; [reflexivity|]. rewrite IH; [reflexivity|].
  destruct H as [H|H]; [|exact H]. subst. rewrite Ascii.eqb_refl in E. discriminate.
Qed.

Lemma cstring_read : forall line read, read_as line read ->
  cstring read = cstring line \/ cstring read = cstring line ++ [ch_nl].
Proof.
  intros line read [-> | ->]; [|left; reflexivity].
  destruct (in_dec Ascii.ascii_dec ch_nul line) as [H|H].
  - left. apply cstring_nul_app. exact H.
  - right. rewrite !cstring_plain; auto. intro K. apply in_app_or in K. destruct K as [K|[K|[]]]; [exact (H K)|discriminate].
Qed.

Lemma shown_newline : forall line shown, shown_as (line ++ [ch_nl]) shown -> shown_as line shown.
Proof.
  intros line shown (trail & E & F & front & c & Es & Nc).
  destruct (@exists_last _ trail) as (tr & x & ->).
  { intros ->. rewrite app_nil_r in E. rewrite Es in E. apply app_inj_tail in E. destruct E as [_ <-].
    apply Nc. right; right; left; reflexivity. }
  rewrite app_assoc in E. apply app_inj_tail in E. destruct E as [-> _].
  exists tr. split; [reflexivity|]. apply Forall_app in F. destruct F as [F _]. eauto.
Qed.

Lemma report_newline : forall file n m line pos out,
  match pos with Some p => (p <= List.length line)%nat | None => True end ->
  Report file n m (line ++ [ch_nl]) pos out -> Report file n m line pos out.
Proof.
  intros file n m line pos out Hp (shown & Hs & ->). exists shown. split; [apply shown_newline; exact Hs|].
  destruct pos as [p|]; [|reflexivity]. rewrite firstn_app.
  replace (p - List.length line)%nat with 0%nat by lia. cbn [firstn]. rewrite app_nil_r. reflexivity.
Qed.

Lemma report_read : forall file n m line read pos out, read_as line read ->
  match pos with Some p => (p <= List.length (before_nul line))%nat | None => True end ->
  Report file n m (cstring read) pos out -> Report file n m (before_nul line) pos out.
Proof.
  intros file n m line read pos out Hr Hp H. rewrite <- cstring_before_nul in *.
  destruct (cstring_read _ _ Hr) as [E|E]; rewrite E in H; [exact H|]. apply report_newline; auto.
Qed.

Local Notation diag_stmt := (Spec_Diag.diag_stmt AsBuilt).
Local Notation complete := (Spec_Diag.complete AsBuilt).
Local Notation diag_from := (Spec_Diag.diag_from AsBuilt).
Local Notation accepts := (Spec_Diag.accepts AsBuilt).
Local Notation diagnose := (Spec_Diag.diagnose AsBuilt).
Local Notation d_close := (Spec_Diag.d_close AsBuilt).

(** ** Runs over lines of the grammar *)
Lemma Line_short : forall ts s, Line ts s -> (List.length ts <= 8)%nat.
Proof.
  intros ts s H. assert (forall l o, Operand l o -> (List.length l <= 5)%nat) as K by (intros l o K; inversion K; cbn; lia).
  inversion H as [|m l o Ho|n m l o Ho| | | | | | |]; subst; cbn [List.length]; try lia; apply K in Ho; lia.
Qed.

Lemma place_le : forall lit line toks w p, Lexes lit true 0 line toks -> place_offset toks w = Some p ->
  (p <= List.length (before_nul line))%nat.
Proof.
  intros lit line toks w p H E.
  assert (exists t, In (t, p) toks) as (t & Hin).
  { destruct w; cbn in E; [| |discriminate].
    - destruct (filter is_label toks) as [|[t q] l] eqn:F; cbn in E; [discriminate|]. injection E as <-.
      exists t. apply (filter_In is_label). rewrite F. left; reflexivity.
    - destruct (rev (filter is_label toks)) as [|[t q] l] eqn:F; cbn in E; [discriminate|]. injection E as <-.
      exists t. apply (filter_In is_label). apply in_rev. rewrite F. left; reflexivity. }
  apply Lexes_cstring in H. pose proof (Lexes_solid _ _ _ _ _ H Hin) as S.
  destruct (solid_visible _ _ S) as [_ L]. rewrite <- cstring_before_nul. lia.
Qed.

Section Lines.
Variable all : list text.

(** [Forall2 line_means lines p] where the list of lines is the part of [all] from
    number [n] on *)
Definition part (n : Z) (lines : list text) : Prop :=
  exists pre, all = pre ++ lines /\ n = 1 + zlen pre.

Lemma part_next : forall n l lines, part n (l :: lines) -> part (n + 1) lines.
Proof.
  intros n l lines (pre & E & ->). exists (pre ++ [l]). rewrite <- app_assoc. split; [exact E|].
  rewrite zlen_app. unfold zlen. cbn [List.length]. lia.
Qed.

Lemma part_nth : forall n l lines, part n (l :: lines) -> nth_error all (Z.to_nat (n - 1)) = Some l.
Proof.
  intros n l lines (pre & E & ->). rewrite E. replace (Z.to_nat (1 + zlen pre - 1)) with (List.length pre) by (unfold zlen; lia).
  apply nth_app_mid.
Qed.

Lemma run_prefix : forall pre p reads n st c post st', Forall2 line_means pre p ->
  Forall2 read_as pre reads -> DRel all n st c -> part n (pre ++ post) -> accepts n st p = Some st' ->
  exists c', DRel all (n + zlen pre) st' c' /\ part (n + zlen pre) post /\
    forall more r, Run more c' r -> Run (map cstring reads ++ more) c r.
Proof.
  intros pre p reads n st c post st' H. revert reads n st c. induction H as [|l s pre p (toks & HL & HG) H IH];
    intros reads n st c HRd HR HP HD.
  - inversion HRd; subst. cbn [app map] in *. injection HD as <-. exists c. rewrite Z.add_0_r. auto.
  - inversion HRd as [|? rd ? rds Hrd HRd']; subst. 
    cbn [app] in HP.
    pose proof (line_diag all (cstring rd) l toks n st c s HR (part_nth _ _ _ HP) HL HG) as LD.
    assert (exists st1, diag_stmt n st s = inl st1 /\ accepts (n + 1) st1 p = Some st' /\ s <> SEnd) as (st1 & E1 & E2 & Ns).
    { destruct s; cbn [Spec_Diag.accepts] in HD; try discriminate;
        match type of HD with match ?d with _ => _ end = _ => destruct d as [st1|] eqn:E1 end; try discriminate;
        exists st1; repeat split; auto; discriminate. }
    assert (exists c1, line_step (cstring rd) toks c = CNext c1 /\ DRel all (n + 1) st1 c1) as (c1 & Es & HR1).
    { destruct s; try congruence; rewrite E1 in LD; exact LD. }
    destruct (IH rds (n + 1) st1 c1 HRd' HR1 (part_next _ _ _ HP) E2) as (c' & A & B & C).
    exists c'. replace (n + zlen (l :: pre)) with (n + 1 + zlen pre) by (unfold zlen; cbn [List.length]; lia).
    split; [exact A|]. split; [exact B|]. intros more r Hr. cbn [map app].
    eapply Run_next; [|rewrite <- (map_length fst toks); eapply Line_short; eauto|exact Es|apply C; exact Hr].
    eapply Lexes_read; [apply Lexes_wr; exact HL|exact Hrd].
Qed.

Lemma close_diag : forall n st c, DRel all n st c ->
  match d_close st with
  | DOk st' code => close c = FinOk c (patch_file (d_env st) (d_done st) (file_of (d_done st)))
  | DError k m w => exists line toks f, nth_error all (Z.to_nat (k - 1)) = Some line /\
      Lexes literal16 true 0 line toks /\ close c = FinErr m k (place_offset toks w) f
  end.
Proof.
  intros n st c HR. pose proof HR as [E P L Tt R F]. unfold Spec_Diag.d_close, close.
  pose proof (finish_complete all (d_env st) (d_done st) (c_refs c) (c_file c) R) as H.
  rewrite E, F in *. destruct (complete (d_env st) (d_done st)) as [code|[k m]].
  - rewrite H. reflexivity.
  - destruct H as (r & f' & line & toks & -> & <- & A & B & C). exists line, toks, f'. rewrite C. auto.
Qed.

Theorem run_diag : forall lines p reads n st c, Forall2 line_means lines p ->
  Forall2 read_as lines reads -> DRel all n st c -> part n lines ->
  exists r, Run (map cstring reads) c r /\
  match diag_from n st p with
  | DOk st' code => exists c' k, DRel all k st' c' /\
      r = FinOk c' (patch_file (d_env st') (d_done st') (file_of (d_done st')))
  | DError k m w => exists line toks f, nth_error all (Z.to_nat (k - 1)) = Some line /\
      Lexes literal16 true 0 line toks /\ r = FinErr m k (place_offset toks w) f
  end.
Proof.
  intros lines p reads n st c H. revert reads n st c. induction H as [|l s lines p (toks & HL & HG) H IH];
    intros reads n st c HRd HR HP.
  - inversion HRd; subst. exists (close c). split; [constructor|]. cbn [Spec_Diag.diag_from].
    pose proof (close_diag n st c HR) as K. unfold Spec_Diag.d_close in *.
    destruct (complete (d_env st) (d_done st)) as [code|[k m]]; [eauto|exact K].
  - inversion HRd as [|? rd ? rds Hrd HRd']; subst. 
    pose proof (line_diag all (cstring rd) l toks n st c s HR (part_nth _ _ _ HP) HL HG) as LD.
    assert (Lexes wr true 0 (cstring rd) toks) as HL2 by (eapply Lexes_read; [apply Lexes_wr; exact HL|exact Hrd]).
    assert ((List.length toks <= 8)%nat) as HN by (rewrite <- (map_length fst toks); eapply Line_short; eauto).
    assert (s = SEnd \/ s <> SEnd) as [-> |Ns] by (destruct s; auto; right; discriminate).
    + exists (close c). split; [cbn [map]; eapply Run_finish; eauto|]. cbn [Spec_Diag.diag_from].
      pose proof (close_diag n st c HR) as K. unfold Spec_Diag.d_close in *.
      destruct (complete (d_env st) (d_done st)) as [code|[k m]]; [eauto|exact K].
    + assert (LD' : match diag_stmt n st s with
        | inl st' => exists c', line_step (cstring rd) toks c = CNext c' /\ DRel all (n + 1) st' c'
        | inr (msg, w) => line_step (cstring rd) toks c = CErr msg (place_offset toks w) end)
        by (destruct s; try congruence; exact LD).
      assert (diag_from n st (s :: p) = match diag_stmt n st s with
        | inl st' => diag_from (n + 1) st' p | inr (m, w) => DError n m w end) as -> by (destruct s; try congruence; reflexivity).
      destruct (diag_stmt n st s) as [st1|[m w]].
      * destruct LD' as (c1 & Es & HR1).
        destruct (IH rds (n + 1) st1 c1 HRd' HR1 (part_next _ _ _ HP)) as (r & R1 & R2).
        exists r. split; [cbn [map]; eapply Run_next; eauto|exact R2].
      * eexists. split; [cbn [map]; eapply Run_err; eauto|].
        exists l, toks, (c_file c). split; [eapply part_nth; eauto|]. split; [exact HL|].
        rewrite (r_line _ _ _ _ HR). reflexivity.
Qed.
End Lines.

(** ** The program *)
Lemma read_nth : forall lines src k line, Forall2 read_as lines (chunks src) -> nth_error lines k = Some line ->
  exists rd, nth_error (lines_of src) k = Some (cstring rd) /\ read_as line rd.
Proof.
  intros lines src k line H. unfold lines_of. revert k. induction H; intros [|k] E; cbn in E; try discriminate.
  - injection E as <-. cbn. eauto.
  - cbn. auto.
Qed.

Theorem gaia_diag : forall file lines src p, source_of lines src -> Forall2 line_means lines p ->
  zlen src < FEW ->
  match diagnose p with
  | DOk st code =>
      gaia file src = Ret (mkOutcome 0 (summary (total_size (d_done st)) (zlen (d_env st)))
                             (of_data (patch_file (d_env st) (d_done st) (file_of (d_done st)))))
  | DError n m w => exists o line toks, gaia file src = Ret o /\ exit_code o = 1 /\
      nth_error lines (Z.to_nat (n - 1)) = Some line /\ Lexes literal16 true 0 line toks /\
      Report file n m (before_nul line) (place_offset toks w) (stdout o)
  end.
Proof.
  intros file lines src p HS HM HB.
  pose proof (chunks_source _ _ HS) as HRd.
  destruct (run_diag lines lines p (chunks src) 1 (mkD 0 [] []) core_init HM HRd (DRel_init lines)) as (r & R & D).
  { exists []. split; reflexivity. }
  destruct (gaia_run file src r R) as [S|[_ K]]; [|lia].
  unfold Spec_Diag.diagnose. destruct (diag_from 1 (mkD 0 [] []) p) as [st code|n m w].
  - destruct D as (c' & k & HR & ->). cbn [settled] in S. rewrite S.
    rewrite (r_total _ _ _ _ HR), (r_env _ _ _ _ HR). reflexivity.
  - destruct D as (line & toks & f & A & B & ->). cbn [settled] in S.
    destruct S as (out & rdl & -> & Hn & Hl & Rep).
    destruct (read_nth _ _ _ _ HRd A) as (rd & Hrd & Hra). rewrite Hrd in Hl. injection Hl as <-.
    eexists _, line, toks. split; [reflexivity|]. split; [reflexivity|]. split; [exact A|]. split; [exact B|].
    cbn [stdout]. eapply report_read; eauto. destruct (place_offset toks w) as [q|] eqn:Eq; [|exact I].
    eapply place_le; eauto.
Qed.
