(** Prop_Same.v -- C06, C07, C08, C31: sources that differ in letter case, comments, blanks
    or spelling give the same result. *)
From Verif Require Import Base Spec_Prog Proof_Base Model_Opcode Model_Lexer Model_Generator Model_Main Spec_Isa Spec_Text Spec_Asm Spec_Report Spec_Alike
  Proof_Opcode Proof_Chars Proof_Lex1 Proof_Lex2 Proof_Fun Proof_Core Proof_Sim2 Proof_Run Proof_Source Proof_Modes Proof_Whole Proof_Prog
  Proof_Check Proof_Alike Proof_Same.

(** ** C06: letter case.  The texts may be any bytes. *)
Lemma nl_not_letter : ~ letter ch_nl.
Proof. intro K. chars. Qed.
Lemma nul_not_letter : ~ letter ch_nul.
Proof. intro K. chars. Qed.

Lemma upper_eqb : forall c c' d, ~ letter d -> upper c = upper c' -> Ascii.eqb c d = Ascii.eqb c' d.
Proof.
  intros c c' d N U. destruct (Ascii.eqb_spec c d) as [-> |E].
  - rewrite (up_same _ _ U N). symmetry. apply Ascii.eqb_eq. reflexivity.
  - symmetry. apply Ascii.eqb_neq. intros ->. apply E. symmetry. apply up_same; auto.
Qed.

Lemma fgets_case : forall n s s', same_but_case s s' ->
  same_but_case (fst (fgets n s)) (fst (fgets n s')) /\ same_but_case (snd (fgets n s)) (snd (fgets n s')).
Proof.
  unfold same_but_case. induction n as [|n IH]; intros s s' H; cbn [fgets]; [auto|].
  destruct s as [|c s], s' as [|c' s']; try discriminate; [auto|]. cbn [map] in H. injection H as H1 H2.
  rewrite (upper_eqb c c' ch_nl nl_not_letter H1). destruct (Ascii.eqb c' ch_nl).
  - cbn. rewrite H1. auto.
  - specialize (IH s s' H2). destruct (fgets n s) as [l r], (fgets n s') as [l' r']. cbn in *. destruct IH as [-> ->]. rewrite H1. auto.
Qed.

Lemma chunks_case : forall k s s', same_but_case s s' -> Forall2 same_but_case (chunks_fuel k s) (chunks_fuel k s').
Proof.
  induction k as [|k IH]; intros s s' H; cbn [chunks_fuel]; [constructor|].
  pose proof (fgets_case (MAX_BUFFER_SIZE - 1) s s' H) as [F1 F2].
  destruct s as [|c s], s' as [|c' s']; try discriminate; [constructor|].
  destruct (fgets _ (c :: s)) as [l r], (fgets _ (c' :: s')) as [l' r']. cbn in F1, F2. constructor; auto.
Qed.

Lemma case_alike : forall s s', same_but_case s s' -> alike s s'.
Proof.
  unfold same_but_case. induction s as [|c s IH]; intros [|c' s'] H; try discriminate.
  - apply (alike_end [] []); try constructor.
  - cbn [map] in H. injection H as H1 H2. apply alike_char; auto.
Qed.

Lemma cstring_case : forall s s', same_but_case s s' -> same_but_case (cstring s) (cstring s').
Proof.
  unfold same_but_case. induction s as [|c s IH]; intros [|c' s'] H; try discriminate; [reflexivity|].
  cbn [map] in H. injection H as H1 H2. cbn [cstring]. rewrite (upper_eqb c c' ch_nul nul_not_letter H1).
  destruct (Ascii.eqb c' ch_nul); [reflexivity|]. cbn [map]. rewrite H1, (IH _ H2). reflexivity.
Qed.

Lemma Forall2_map2 : forall A B (f : A -> B) (P : A -> A -> Prop) (Q : B -> B -> Prop), (forall a b, P a b -> Q (f a) (f b)) ->
  forall l l', Forall2 P l l' -> Forall2 Q (map f l) (map f l').
Proof. intros A B f P Q H l l' F. induction F; constructor; auto. Qed.

Lemma Forall2_impl : forall A B (P Q : A -> B -> Prop), (forall a b, P a b -> Q a b) -> forall l l', Forall2 P l l' -> Forall2 Q l l'.
Proof. intros A B P Q H l l' F. induction F; constructor; auto. Qed.

Lemma small_few : forall src, small src -> zlen src < FEW.
Proof. intros src H. exact H. Qed.

Theorem C06_case : forall file src src', small src -> same_but_case src src' ->
  same_result file (gaia file src) (gaia file src').
Proof.
  intros file src src' B H. assert (L : List.length src = List.length src') by (apply same_up_length; exact H).
  apply gaia_alike; [apply small_few, B|unfold zlen; rewrite <- L; apply small_few, B|].
  unfold lines_of, chunks. rewrite <- L. eapply Forall2_map2; [|apply chunks_case; exact H].
  intros a b K. apply alike_acts, alike_alike_line, case_alike, cstring_case, K.
Qed.

(** ** Lines, as they are read *)
Definition nl_tail (x : text) : Prop := x = [] \/ x = [ch_nl].
Lemma read_tail : forall line rd, read_as line rd -> exists x, rd = line ++ x /\ nl_tail x.
Proof. intros line rd [-> | ->]; [exists [ch_nl]|exists []; rewrite app_nil_r]; unfold nl_tail; auto. Qed.

Lemma ends_cstring : forall s x, ends s -> nl_tail x -> ends (cstring (s ++ x)).
Proof.
  intros [|c s] x E [-> | ->]; cbn [app cstring].
  - exact I.
  - cbn. chars.
  - destruct (Ascii.eqb c ch_nul); [exact I|exact E].
  - destruct (Ascii.eqb c ch_nul); [exact I|exact E].
Qed.

Lemma blanks_plain : forall b, blanks b -> ~ In ch_nul b.
Proof. intros b B K. apply (proj1 (Forall_forall _ _) B) in K. destruct K; discriminate. Qed.

Lemma cstring_blanks : forall b s, blanks b -> cstring (b ++ s) = b ++ cstring s.
Proof. intros b s B. apply cstring_app_plain, blanks_plain, B. Qed.

Lemma cstring_cons : forall c s, c <> ch_nul -> cstring (c :: s) = c :: cstring s.
Proof. intros c s H. cbn [cstring]. apply Ascii.eqb_neq in H. rewrite H. reflexivity. Qed.

Lemma bracket_not_nul : forall c, c = "("%char \/ c = ")"%char \/ c = ","%char -> c <> ch_nul.
Proof. intros c [-> |[-> | ->]]; discriminate. Qed.
Lemma punct_not_nul : forall c t, punct c t -> c <> ch_nul.
Proof. intros c t [P|[P|[P|[P|[P|P]]]]]; injection P as -> _; discriminate. Qed.

Lemma alike_read : forall s s', alike s s' -> forall x x', nl_tail x -> nl_tail x' -> alike (cstring (s ++ x)) (cstring (s' ++ x')).
Proof.
  intros s s' H x x' X X'. induction H as [b b' s s' B B' E E'|c c' s s' U H IH|b b' s s' B B' N N' H IH|b b' c g g' s s' B B' G G' D H IH|c t b b' s s' P B B' H IH].
  - rewrite <- !app_assoc, (cstring_blanks b), (cstring_blanks b') by assumption. apply alike_end; auto using ends_cstring.
  - cbn [app]. destruct (Ascii.eqb_spec c ch_nul) as [-> |Nn].
    + rewrite <- (up_same _ _ U nul_not_letter). cbn [cstring]. apply (alike_end [] [] [] []); constructor.
    + rewrite !cstring_cons; [apply alike_char; auto| |exact Nn]. intros ->. apply Nn. symmetry. apply up_same; [auto|exact nul_not_letter].
  - rewrite <- !app_assoc, (cstring_blanks b), (cstring_blanks b') by assumption. apply alike_run; auto.
  - rewrite <- !app_assoc, (cstring_blanks b), (cstring_blanks b') by assumption. cbn [app].
    rewrite !cstring_cons by (apply bracket_not_nul; exact D). rewrite <- !app_assoc, (cstring_blanks g), (cstring_blanks g') by assumption. apply alike_around; auto.
  - cbn [app]. rewrite !cstring_cons by (eapply punct_not_nul; exact P). rewrite <- !app_assoc, (cstring_blanks b), (cstring_blanks b') by assumption. eapply alike_after; eauto.
Qed.

Lemma alike_line_read : forall l l' rd rd', alike_line l l' -> read_as l rd -> read_as l' rd' -> alike_line (cstring rd) (cstring rd').
Proof.
  intros l l' rd rd' (b & b' & s & s' & B & B' & -> & -> & A) R R'.
  destruct (read_tail _ _ R) as (x & -> & X). destruct (read_tail _ _ R') as (x' & -> & X').
  rewrite <- !app_assoc, (cstring_blanks b), (cstring_blanks b') by assumption. exists b, b', (cstring (s ++ x)), (cstring (s' ++ x')).
  repeat (split; [auto; fail|]). apply alike_read; auto.
Qed.

(** lines that act alike once they are read *)
Definition reads_alike_as (l l' : text) : Prop := forall rd rd', read_as l rd -> read_as l' rd' -> acts_as (cstring rd) (cstring rd').

Lemma gaia_lines : forall file lines lines' src src', source_of lines src -> source_of lines' src' -> small src -> small src' ->
  Forall2 reads_alike_as lines lines' -> same_result file (gaia file src) (gaia file src').
Proof.
  intros file lines lines' src src' S S' B B' F. apply gaia_alike; [apply small_few, B|apply small_few, B'|].
  pose proof (chunks_source _ _ S) as C. pose proof (chunks_source _ _ S') as C'. unfold lines_of.
  revert C C'. generalize (chunks src) (chunks src'). clear - F. induction F as [|l l' lines lines' H F IH]; intros cs cs' C C'; inversion C; inversion C'; subst; cbn [map]; constructor; auto.
Qed.

Lemma alike_reads : forall l l', alike_line l l' -> reads_alike_as l l'.
Proof. intros l l' A rd rd' R R'. apply alike_acts. eapply alike_line_read; eauto. Qed.

(** ** C07: comments *)
Lemma alike_refl_text : forall s, alike s s.
Proof. induction s; [apply (alike_end [] [] [] []); constructor|apply alike_char; auto]. Qed.

Lemma comment_ends : forall c, comment c -> ends c.
Proof. intros c [-> |(t & ->)]; cbn; auto. chars. Qed.

Lemma comment_alike : forall l l', same_but_comment l l' -> alike_line l l'.
Proof.
  intros l l' (k & c & c' & -> & -> & C & C'). apply alike_alike_line. induction k as [|d k IH]; cbn [app].
  - apply (alike_end [] []); auto using comment_ends; constructor.
  - apply alike_char; auto.
Qed.

Theorem C07_comments_partial : forall file lines lines' src src', source_of lines src -> source_of lines' src' -> small src -> small src' ->
  Forall2 same_but_comment lines lines' -> same_result file (gaia file src) (gaia file src').
Proof.
  intros file lines lines' src src' S S' B B' F. eapply gaia_lines; eauto. eapply Forall2_impl; [|exact F].
  intros. apply alike_reads, comment_alike. assumption.
Qed.

(** ** C08: blanks *)
Lemma respaced_alike : forall s s', respaced s s' -> alike s s'.
Proof.
  intros s s' H. induction H.
  - rewrite <- (app_nil_r b), <- (app_nil_r b'). apply alike_end; auto; constructor.
  - apply alike_char; auto.
  - apply alike_run; auto.
  - apply alike_around; auto.
  - eapply alike_after; eauto.
Qed.

Lemma respaced_line_alike : forall l l', respaced_line l l' -> alike_line l l'.
Proof.
  intros l l' (b & b' & s & s' & B & B' & E & E' & R). exists b, b', s, s'. repeat (split; [assumption|]). apply respaced_alike, R.
Qed.

Theorem C08_blanks : forall file lines lines' src src', source_of lines src -> source_of lines' src' -> small src -> small src' ->
  Forall2 respaced_line lines lines' -> same_result file (gaia file src) (gaia file src').
Proof.
  intros file lines lines' src src' S S' B B' F. eapply gaia_lines; eauto. eapply Forall2_impl; [|exact F].
  intros. apply alike_reads, respaced_line_alike. assumption.
Qed.

(** ** C31: spellings *)
Lemma wr_fun : forall n v v', literal_wrapping n v -> literal_wrapping n v' -> v = v'.
Proof. intros n v v' (-> & _) (-> & _). reflexivity. Qed.

(** a line that has tokens does not fail *)
Lemma lexes_no_fail : forall l toks e pos, Lexes wr true 0 l toks -> (List.length toks <= 8)%nat -> ~ LexFails wr l e pos.
Proof.
  intros l toks e pos L N F. 
  destruct (lex_line_fails l [] 1 (init_lexer []) init_token init_instruction e pos eq_refl eq_refl F) as (lx & tk & ins & out & E & _).
  rewrite (lex_line_ok l [] 1 (init_lexer []) init_token init_instruction toks eq_refl eq_refl L N) in E. injection E as E. 
  pose proof (error_code_neg e) as K. rewrite <- E in K. unfold LEXER_SUCCESS in K. lia.
Qed.
Lemma lexes_no_many : forall l toks, Lexes wr true 0 l toks -> (List.length toks <= 8)%nat -> ~ TooManyTokens wr l.
Proof.
  intros l toks L N F. 
  destruct (lex_line_many l [] 1 (init_lexer []) init_token init_instruction eq_refl eq_refl F) as (lx & tk & ins & E).
  rewrite (lex_line_ok l [] 1 (init_lexer []) init_token init_instruction toks eq_refl eq_refl L N) in E. discriminate.
Qed.
Lemma lexes_no_undef : forall l toks, Lexes wr true 0 l toks -> (List.length toks <= 8)%nat -> ~ LexUndefined l.
Proof.
  intros l toks L N F. 
  pose proof (lex_line_undef l [] 1 (init_lexer []) init_token init_instruction eq_refl eq_refl F) as E.
  rewrite (lex_line_ok l [] 1 (init_lexer []) init_token init_instruction toks eq_refl eq_refl L N) in E. discriminate.
Qed.

Lemma tokens_act : forall l l' toks toks', Lexes wr true 0 l toks -> (List.length toks <= 8)%nat ->
  Lexes wr true 0 l' toks' -> (List.length toks' <= 8)%nat ->
  (forall c c', core_alike c c' -> res_alike (line_step l toks c) (line_step l' toks' c')) -> acts_as l l'.
Proof.
  intros l l' toks toks' L N L' N' H. constructor.
  - intros t Lt _. rewrite (Lexes_fun _ wr_fun _ _ _ _ _ Lt L). exists toks'. auto.
  - intros e pos F. destruct (lexes_no_fail _ _ _ _ L N F).
  - intro F. destruct (lexes_no_many _ _ L N F).
  - intro F. destruct (lexes_no_undef _ _ L N F).
Qed.

(** statements with several spellings *)
Lemma const_step : forall l l' toks toks' n i i' v, compile (map fst toks) = inl (CConst n i v) -> compile (map fst toks') = inl (CConst n i' v) ->
  forall c c', core_alike c c' -> res_alike (line_step l toks c) (line_step l' toks' c').
Proof.
  intros l l' toks toks' n i i' v E E' c c' A. unfold line_step. rewrite E, E'. pose proof A as [A1 A2 A3 A4 A5 A6]. rewrite <- A1.
  destruct (lookup (c_env c) n); [reflexivity|]. apply next_alike, define_alike, A.
Qed.
Lemma org_step : forall l l' toks toks' v, compile (map fst toks) = inl (COrg v) -> compile (map fst toks') = inl (COrg v) ->
  forall c c', core_alike c c' -> res_alike (line_step l toks c) (line_step l' toks' c').
Proof.
  intros l l' toks toks' v E E' c c' A. unfold line_step. rewrite E, E'. pose proof A as [A1 A2 A3 A4 A5 A6].
  apply next_alike. constructor; auto.
Qed.

Lemma acc_flags : forall m name, on_accumulator name -> m = str_to_mnemonic (T name) -> forall b,
  flag_none m = flag_known m true false (mkFlags false false false false b) \/ b = false.
Proof.
  intros m name H -> b. destruct H as [-> |[-> |[-> | ->]]]; destruct b; auto; left; vm_compute; reflexivity.
Qed.

Lemma acc_step : forall l l' toks toks' lab name, on_accumulator name ->
  Line (map fst toks) (SInstr lab name ONone) -> Line (map fst toks') (SInstr lab name OAcc) ->
  forall c c', core_alike c c' -> res_alike (line_step l toks c) (line_step l' toks' c') /\ res_alike (line_step l' toks' c) (line_step l toks c').
Proof.
  intros l l' toks toks' lab name Hn H H' c c' A. pose proof A as [A1 A2 A3 A4 A5 A6].
  assert (K : forall d d', core_alike d d' -> forall i,
     res_alike (instr_step l toks (str_to_mnemonic (T name)) None (mkFlags false false false false false) d)
               (instr_step l' toks' (str_to_mnemonic (T name)) (Some (i, TA)) (mkFlags false false false false true) d') /\
     res_alike (instr_step l' toks' (str_to_mnemonic (T name)) (Some (i, TA)) (mkFlags false false false false true) d)
               (instr_step l toks (str_to_mnemonic (T name)) None (mkFlags false false false false false) d')).
  { intros d d' Ad i. unfold instr_step. cbn zeta.
    destruct (acc_flags _ name Hn eq_refl true) as [E|E]; [|discriminate]. rewrite <- E.
    destruct (flag_none _ =? 0); [cbn; auto|]. split; cbn; apply emit_alike; assumption. }
  unfold line_step. inversion H as [|? ? ? O Et| ? ? ? ? O Et| | | | | | |]; subst; inversion O; subst;
    inversion H' as [|? ? ? O' Et'| ? ? ? ? O' Et'| | | | | | |]; subst; inversion O'; subst.
  - cbn [compile comp_operand]. apply (K c c' A 1%nat).
  - cbn [compile comp_operand cinstr]. unfold cinstr. cbn iota. rewrite <- !A1, <- A3.
    destruct (lookup (c_env c) n); [cbn; auto|].
    apply (K _ _ (define_alike _ _ n (c_pc c) A) 2%nat).
Qed.

Lemma stmt_step : forall l l' toks toks' s s', Line (map fst toks) s -> Line (map fst toks') s' -> same_stmt s s' ->
  forall c c', core_alike c c' -> res_alike (line_step l toks c) (line_step l' toks' c').
Proof.
  intros l l' toks toks' s s' H H' S c c' A. destruct S as [s|lab m M|lab m M].
  2:{ apply (acc_step l l' toks toks' lab m M H H' c c' A). }
  2:{ apply (acc_step l' l toks' toks lab m M H' H c c' A). }
  assert (X : forall e t t', Expr t e -> Expr t' e -> t = t') by (intros e t t' P Q; destruct P; inversion Q; reflexivity).
  assert (O : forall o ts ts', Operand ts o -> Operand ts' o -> ts = ts').
  { intros o ts ts' P Q. destruct P; inversion Q; subst; try reflexivity;
      (match goal with P : Expr ?t ?e, Q : Expr ?t' ?e |- _ => rewrite (X _ _ _ P Q); reflexivity end). }
  assert (K : map fst toks = map fst toks' -> res_alike (line_step l toks c) (line_step l' toks' c')) by (intro; apply step_alike; auto).
  inversion H as [Et|m ts o P Et|n m ts o P Et|n Et|n v Et|n v Et|n v Et|v Et|v Et|Et]; subst;
    inversion H' as [Et'|m' ts' o' P' Et'|n' m' ts' o' P' Et'|n' Et'|n' v' Et'|n' v' Et'|n' v' Et'|v' Et'|v' Et'|Et']; subst;
  first [ apply K; congruence
        | apply K; rewrite <- Et, <- Et', (O _ _ _ P P'); reflexivity
        | eapply const_step; [rewrite <- Et; reflexivity|rewrite <- Et'; reflexivity|exact A]
        | eapply org_step; [rewrite <- Et; reflexivity|rewrite <- Et'; reflexivity|exact A] ].
Qed.

Lemma meaning_acts : forall l l', same_meaning l l' -> reads_alike_as l l'.
Proof.
  intros l l' (s & s' & (toks & L & G) & (toks' & L' & G') & S) rd rd' R R'.
  assert (N : (List.length toks <= 8)%nat).
  { pose proof (Line_short _ _ G). rewrite map_length in *. lia. }
  assert (N' : (List.length toks' <= 8)%nat).
  { pose proof (Line_short _ _ G'). rewrite map_length in *. lia. }
  apply (tokens_act _ _ toks toks'); auto.
  - eapply Lexes_read; [apply Lexes_wr; exact L|exact R].
  - eapply Lexes_read; [apply Lexes_wr; exact L'|exact R'].
  - intros. eapply stmt_step; eauto.
Qed.

(** every line of [src'] is a respelling of the line of [src], or the line itself up to
    letter case, blanks and comment *)
Theorem C31_spellings : forall file lines lines' src src', source_of lines src -> source_of lines' src' -> small src -> small src' ->
  Forall2 (fun l l' => same_meaning l l' \/ alike_line l l') lines lines' -> same_result file (gaia file src) (gaia file src').
Proof.
  intros file lines lines' src src' S S' B B' F. eapply gaia_lines; eauto. eapply Forall2_impl; [|exact F].
  intros l l' [H|H]; [apply meaning_acts|apply alike_reads]; exact H.
Qed.

(** ** C07 is false for long comments: the program reads 127 characters at a time and takes
    the rest of a long comment for code *)
Definition long_comment : text := ";"%char :: repeat ch_sp 126 ++ T " NOP".
Theorem C07_refuted : exists file l l' o o', same_but_comment l l' /\ ~ In ch_nl l /\ ~ In ch_nl l' /\
  gaia file (l ++ [ch_nl]) = Ret o /\ gaia file (l' ++ [ch_nl]) = Ret o' /\ exit_code o = 0 /\ exit_code o' = 0 /\ binary o <> binary o'.
Proof.
  exists (T "a.asm"), long_comment, (T ";"). do 2 eexists.
  split. { exists [], long_comment, (T ";"). repeat split; unfold comment; right; [exists (tl long_comment)|exists []]; reflexivity. }
  split. { intro K. assert (E : existsb (Ascii.eqb ch_nl) long_comment = true) by (apply existsb_exists; exists ch_nl; split; [exact K|reflexivity]).
           revert E. vm_compute. discriminate. }
  split. { intros [K|[]]; discriminate. }
  split; [vm_compute; reflexivity|]. split; [vm_compute; reflexivity|]. split; [reflexivity|]. split; [reflexivity|]. discriminate.
Qed.

(** a blank must stand between a label and the equal sign *)
Theorem C08_needs_blank : exists file o o', gaia file (T "L =$10" ++ [ch_nl]) = Ret o /\ gaia file (T "L=$10" ++ [ch_nl]) = Ret o' /\
  exit_code o = 0 /\ exit_code o' = 1.
Proof. exists (T "a.asm"). do 2 eexists. split; [vm_compute; reflexivity|]. split; [vm_compute; reflexivity|]. split; reflexivity. Qed.

(** ** The hypotheses are met, and the results are as the theorems say *)
Definition lower (c : ascii) : ascii := if (65 <=? code c) && (code c <=? 90) then chr (code c + 32) else c.
Example C06_example : exists src src', src <> src' /\ small src /\ same_but_case src src' /\
  exists o o', gaia (T "a.asm") src = Ret o /\ gaia (T "a.asm") src' = Ret o' /\ exit_code o = 0 /\ binary o = binary o' /\ binary o <> [].
Proof.
  exists (join demo), (map lower (join demo)). split; [vm_compute; discriminate|]. split; [unfold small; vm_compute; reflexivity|].
  split; [vm_compute; reflexivity|]. do 2 eexists. split; [vm_compute; reflexivity|]. split; [vm_compute; reflexivity|].
  repeat split; discriminate.
Qed.

Example C07_example : exists lines lines', lines <> lines' /\ source_of lines (join lines) /\ source_of lines' (join lines') /\ small (join lines) /\ small (join lines') /\
  Forall2 same_but_comment lines lines'.
Proof.
  exists [T " DEX ; once more"; T "; text"; T "L NOP"], [T " DEX ;twice"; []; T "L NOP;"]. split; [discriminate|].
  split; [split; [apply fitsb_ok; vm_compute; reflexivity|left; reflexivity]|].
  split; [split; [apply fitsb_ok; vm_compute; reflexivity|left; reflexivity]|].
  do 2 (split; [unfold small; vm_compute; reflexivity|]).
  repeat constructor.
  - exists (T " DEX "), (T "; once more"), (T ";twice"). repeat split; right; eexists; reflexivity.
  - exists [], (T "; text"), []. repeat split; [right; eexists; reflexivity|left; reflexivity].
  - exists (T "L NOP"), [], (T ";"). repeat split; [left; reflexivity|right; eexists; reflexivity].
Qed.

Example C08_example : exists lines lines', lines <> lines' /\ source_of lines (join lines) /\ source_of lines' (join lines') /\ small (join lines) /\ small (join lines') /\
  Forall2 respaced_line lines lines'.
Proof.
  exists [T "LDA ($10,X)"], [T "  LDA   ( $10 , X ) "]. split; [discriminate|].
  split; [split; [apply fitsb_ok; vm_compute; reflexivity|left; reflexivity]|].
  split; [split; [apply fitsb_ok; vm_compute; reflexivity|left; reflexivity]|].
  do 2 (split; [unfold small; vm_compute; reflexivity|]).
  assert (B : forall n, blanks (repeat ch_sp n)) by (intro n; apply Forall_forall; intros x Hx; apply repeat_spec in Hx; left; exact Hx).
  constructor; [|constructor]. exists [], (repeat ch_sp 2), (T "LDA ($10,X)"), (T "LDA   ( $10 , X ) ").
  split; [apply (B 0%nat)|]. split; [apply B|]. split; [reflexivity|]. split; [reflexivity|].
  do 3 apply respaced_same.
  apply (respaced_run (repeat ch_sp 1) (repeat ch_sp 3) (T "($10,X)") (T "( $10 , X ) ")); try apply B; try discriminate.
  apply (respaced_after "("%char TOpen [] (repeat ch_sp 1) (T "$10,X)") (T "$10 , X ) ")); [unfold punct; auto|apply (B 0%nat)|apply B|].
  do 3 apply respaced_same.
  apply (respaced_around [] (repeat ch_sp 1) ","%char [] (repeat ch_sp 1) (T "X)") (T "X ) ")); try apply B; try apply (B 0%nat); auto.
  apply respaced_same. apply (respaced_around [] (repeat ch_sp 1) ")"%char [] (repeat ch_sp 1) [] []); try apply B; try apply (B 0%nat); auto.
  apply (respaced_end [] []); apply (B 0%nat).
Qed.

Example C31_example : exists lines lines', lines <> lines' /\ source_of lines (join lines) /\ source_of lines' (join lines') /\ small (join lines) /\ small (join lines') /\ Forall2 (fun l l' => same_meaning l l' \/ alike_line l l') lines lines'.
Proof.
  exists [T "L = 5"; T "K .EQU $6"; T ".ORG 512"; T "M:"; T "N ASL"; T " LDA L,"],
         [T ".DEFINE L %101"; T "K = 6"; T "*=$200"; T "M"; T "N ASL A"; T " LDA L,"]. split; [discriminate|].
  split; [split; [apply fitsb_ok; vm_compute; reflexivity|left; reflexivity]|].
  split; [split; [apply fitsb_ok; vm_compute; reflexivity|left; reflexivity]|].
  do 2 (split; [unfold small; vm_compute; reflexivity|]).
  Ltac meaning c := left; do 2 eexists; split; [apply statement_ok; vm_compute; reflexivity|split; [apply statement_ok; vm_compute; reflexivity|apply c]].
  constructor; [meaning same_itself|]. constructor; [meaning same_itself|]. constructor; [meaning same_itself|]. constructor; [meaning same_itself|].
  constructor; [meaning same_acc; left; reflexivity|]. constructor; [right; apply alike_alike_line, alike_refl_text|constructor].
Qed.
