(** Prop_Told.v -- C79: what is printed tells what happened. *)
From Verif Require Import Base Proof_Base Model_Opcode Model_Error Model_Lexer Model_SymbolTable Model_Parser Model_Generator Model_ForwardRef Model_Main
  Spec_Isa Spec_Text Spec_Asm Spec_Diag Spec_Link Spec_Grammar Spec_Prog Spec_Report Spec_Left Spec_Total Spec_Told
  Proof_Chars Proof_Error Proof_Lex2 Proof_Sim1 Proof_Decimal Proof_Diag Proof_Whole Proof_Check Proof_Fun Prop_Syntax Prop_Total.

(** ** Positions: a visible character stands at the offset or right before it *)
Definition near (line : text) (p : nat) : Prop := exists i c, nth_error line i = Some c /\ ~ trailing c /\ (p <= S i)%nat.

Lemma nth_at : forall (a b : text) c, nth_error (a ++ c :: b) (List.length a) = Some c.
Proof. intros. rewrite nth_error_app2 by lia. rewrite Nat.sub_diag. reflexivity. Qed.

Lemma near_solid : forall line p, solid line p -> near line p.
Proof.
  intros line p (pre & c & post & -> & -> & N1 & N2). exists (List.length pre), c. split; [apply nth_at|].
  split; [|lia]. unfold trailing, blank, line_end in *. tauto.
Qed.

Lemma bad_near : forall lit s e k, bad_token lit s e k -> near s k.
Proof.
  intros lit s e k H. pose proof (bad_head _ _ _ _ H) as (A & B & C & _).
  assert (Z0 : (k <= 1)%nat -> near s k).
  { intro K. destruct s as [|c s]; [congruence|]. exists 0%nat, c. split; [reflexivity|]. split; [|lia].
    cbn [hdc] in *. unfold trailing, blank, line_end in *. tauto. }
  assert (AT : forall pre c post, s = pre ++ c :: post -> k = List.length pre -> ~ delimiter c -> near s k).
  { intros pre c post -> -> N. exists (List.length pre), c. split; [apply nth_at|]. split; [|lia].
    unfold trailing, delimiter, blank, line_end in *. tauto. }
  destruct H as [c s Hb He Hs Ha|b s Hb Hd|b ds n c s Hn Hd Hdl|w n s Hn Hd Hv|w c s Hi Hl Hw Hd Hc Ha
                |w s Hi Hl|w c s Hf Hl Hw Hd Ha|w s Hf Hl Hd Hm|w s Hf Hl]; try (apply Z0; lia).
  - apply (AT (prefix b ++ ds) c s); [rewrite app_assoc; reflexivity|rewrite app_length; reflexivity|exact Hdl].
  - apply (AT w c s); auto.
  - apply (AT ("."%char :: w) c s); auto.
Qed.

Lemma near_fails : forall lit line e pos, LexFails lit line e pos -> near line pos.
Proof.
  intros lit line e pos (toks & f & o & s & k & R & _ & B & ->). destruct (Reads_split _ _ _ _ _ _ _ _ R) as (pre & -> & ->).
  destruct (bad_near _ _ _ _ B) as (i & c & E & N & L). exists (List.length pre + i)%nat, c. split; [|split; [exact N|lia]].
  rewrite nth_error_app2 by lia. replace (List.length pre + i - List.length pre)%nat with i by lia. exact E.
Qed.

Lemma near_shown : forall line shown p, near line p -> shown_as line shown -> (p <= List.length shown)%nat /\ firstn p line = firstn p shown.
Proof.
  intros line shown p (i & c & E & N & L) (tr & -> & F & _).
  assert (i < List.length shown)%nat.
  { destruct (Nat.lt_ge_cases i (List.length shown)) as [K|K]; [exact K|]. rewrite nth_error_app2 in E by exact K. apply nth_error_In in E.
    rewrite Forall_forall in F. destruct (N (F _ E)). }
  split; [lia|]. rewrite firstn_app. replace (p - List.length shown)%nat with 0%nat by lia. cbn [firstn]. apply app_nil_r.
Qed.

(** ** Lines: a newline is the last character *)
Definition newline_last (line : text) : Prop := forall a b, line = a ++ ch_nl :: b -> b = [].

Lemma cut_newline : forall src cs, cut src cs -> Forall newline_last cs.
Proof.
  induction 1 as [|l rest ls N L C IH|l rest ls N L C IH|l N L]; constructor; auto.
  - intros a b E. change (l ++ [ch_nl]) with (l ++ ch_nl :: []) in E. assert (Na : ~ In ch_nl a).
    { intro K. apply in_split in K as (a1 & a2 & ->). rewrite <- app_assoc in E. cbn [app] in E.
      assert (X := f_equal (@removelast ascii) E). rewrite removelast_last in X.
      assert (Y : a1 ++ ch_nl :: a2 ++ ch_nl :: b = (a1 ++ ch_nl :: a2) ++ ch_nl :: b) by (rewrite <- app_assoc; reflexivity).
      rewrite Y, removelast_app in X by discriminate. apply N. rewrite X. apply in_or_app. left. apply in_or_app. right. left. reflexivity. }
    apply split_at in E; auto. destruct E as [_ E]. auto.
  - intros a b E. destruct N. rewrite E. apply in_or_app. right. left. reflexivity.
  - intros a b E. destruct N. rewrite E. apply in_or_app. right. left. reflexivity.
Qed.

Lemma before_nul_prefix : forall s, exists t, s = before_nul s ++ t.
Proof.
  induction s as [|c s (t & E)]; [exists []; reflexivity|]. cbn [before_nul]. destruct (Ascii.eqb c ch_nul); [exists (c :: s); reflexivity|].
  exists t. cbn [app]. f_equal. exact E.
Qed.

Lemma pieces_newline : forall src l line, pieces src l -> In line l -> newline_last line.
Proof.
  intros src l line (cs & C & ->) I. apply in_map_iff in I as (x & <- & I). apply cut_newline in C. rewrite Forall_forall in C.
  destruct (before_nul_prefix x) as (t & E). intros a b K. specialize (C x I a (b ++ t)). rewrite E in C at 1. rewrite K, <- app_assoc in C.
  specialize (C eq_refl). destruct b; [reflexivity|discriminate].
Qed.

Lemma shown_newline : forall line shown, newline_last line -> shown_as line shown -> ~ In ch_nl shown.
Proof.
  intros line shown N (tr & -> & F & front & c & -> & C) I.
  assert (K : c <> ch_nl) by (intros ->; apply C; unfold trailing; tauto).
  apply in_app_or in I as [I|[I|[]]]; [|congruence]. apply in_split in I as (a & b & ->).
  specialize (N a (b ++ c :: tr)). rewrite <- !app_assoc in N. cbn [app] in N. specialize (N eq_refl).
  destruct b; discriminate.
Qed.

(** ** Messages are one line *)
Definition one_line (m : string) : Prop := ~ In ch_nl (T m).
Ltac one_line := unfold one_line, T; cbn; intuition discriminate.

Lemma instr_message : forall r n st m o msg w, diag_instr r n st m o = inr (msg, w) -> one_line msg.
Proof.
  intros r n st m o msg w H. unfold diag_instr in H.
  repeat match type of H with
  | (if ?b then _ else _) = _ => destruct b
  | match ?x with _ => _ end = _ => destruct x
  | inr _ = inr _ => injection H as <- <-
  | inl _ = inr _ => discriminate
  end; try one_line; try (destruct p).
  all: repeat match type of H with
  | (let '(_, _) := ?x in _) = _ => destruct x
  | (if ?b then _ else _) = _ => destruct b
  | match ?x with _ => _ end = _ => destruct x
  | inr _ = inr _ => injection H as <- <-
  | inl _ = inr _ => discriminate
  end; one_line.
Qed.

Lemma stmt_message : forall r n st s msg w, diag_stmt r n st s = inr (msg, w) -> one_line msg.
Proof.
  intros r n st s msg w H. destruct s as [|l|l v|v| |[l|] m o]; cbn [diag_stmt] in H; try discriminate;
    try (destruct (lookup (d_env st) l); [injection H as <- <-; one_line|]); try discriminate; eapply instr_message; exact H.
Qed.

Lemma understood_message : forall n st u msg w, do_understood n st u = inr (msg, w) -> one_line msg.
Proof.
  intros n st [s|lab m e] msg w H; cbn [do_understood] in H; [eapply stmt_message; exact H|].
  destruct lab as [l|].
  - destruct (diag_stmt AsBuilt n st (SLabel l)) as [st'|[m' w']] eqn:D.
    + destruct (_ && _); injection H as <- <-; one_line.
    + injection H as <- <-. eapply stmt_message; exact D.
  - destruct (_ && _); injection H as <- <-; one_line.
Qed.

Lemma complete_message : forall r e l n msg, complete r e l = inr (n, msg) -> one_line msg.
Proof.
  intros r e. induction l as [|p l IH]; intros n msg H; [discriminate|]. cbn [complete] in H. destruct (pl_bytes p) as [bs|].
  - destruct (complete r e l) as [code|[n' m']]; [discriminate|]. injection H as <- <-. eapply IH. reflexivity.
  - destruct (encode_operand r e (pl_item p)) as [bs|].
    + destruct (complete r e l) as [code|[n' m']]; [discriminate|]. injection H as <- <-. eapply IH. reflexivity.
    + injection H as <- <-. destruct (match it_expr (pl_item p) with Some x => eval e x | None => None end); one_line.
Qed.

(** ** What is known of the error *)
Definition sound (l : list text) (n : Z) (m : string) (pos : option nat) : Prop :=
  one_line m /\ exists line, nth_error l (Z.to_nat (n - 1)) = Some line /\ forall p, pos = Some p -> near line p.

Lemma near_in : forall line toks (t : tok) p, scanned line toks -> In (t, p) toks -> near line p.
Proof. intros line toks t p [L _] I. eapply near_solid, Lexes_solid; eauto. Qed.

Lemma place_at : forall toks w p, place_in toks w = Some p -> exists t, In (t, p) toks.
Proof.
  assert (HD : forall (l : list (tok * nat)) p, option_map snd (hd_error l) = Some p -> exists t : tok, In (t, p) l).
  { intros [|[t q] l] p H; [discriminate|]. injection H as <-. exists t. left. reflexivity. }
  assert (BM : forall toks x, In x (behind_mnemonic toks) -> In x toks).
  { induction toks as [|[t q] toks IH]; intros x I; [exact I|]. destruct t; cbn [behind_mnemonic] in I; right; auto. }
  intros toks [| |] p H; cbn [place_in] in H; [| |discriminate]; apply HD in H as (t & I); apply filter_In in I as [I _]; exists t; auto.
Qed.

Lemma reads_sound : forall all n st lines st' h, reads_on n st lines st' h -> part all n lines ->
  forall k m pos, h = Rejected k m pos -> sound all k m pos.
Proof.
  intros all n st lines st' h H. induction H; intros P k m' pos' E; try discriminate.
  - eapply IHreads_on; [|exact E]. eapply part_next; exact P.
  - injection E as <- <- <-. split; [eapply understood_message; eassumption|]. exists line. split; [eapply part_nth; exact P|].
    intros p K. apply place_at in K as (t & I). eapply near_in; eauto.
  - injection E as <- <- <-. split; [unfold syntax_message; destruct (map fst toks) as [|[]]; one_line|]. exists line. split; [eapply part_nth; exact P|].
    intros p K. destruct (nth_error toks i) as [[t q]|] eqn:N; [|discriminate]. injection K as <-. apply nth_error_In in N. eapply near_in; eauto.
  - injection E as <- <- <-. split; [destruct e; one_line|]. exists line. split; [eapply part_nth; exact P|].
    intros p K. injection K as <-. eapply near_fails; eassumption.
Qed.

Lemma blamed_sound : forall l st h n m line pos, reads_on 1 (mkD 0 [] []) l st h -> blamed l st h n m line pos ->
  one_line m /\ nth_error l (Z.to_nat (n - 1)) = Some line /\ forall p, pos = Some p -> near line p.
Proof.
  intros l st h n m line pos R B. destruct B as [st n m pos line N|st n m line toks C N S].
  - destruct (reads_sound l 1 _ _ _ _ R (ex_intro _ [] (conj eq_refl eq_refl)) n m pos eq_refl) as (O & line' & N' & K).
    rewrite N in N'. injection N' as <-. auto.
  - split; [eapply complete_message; exact C|]. split; [exact N|]. intros p K. apply place_at in K as (t & I). eapply near_in; eauto.
Qed.

Lemma blamed_report : forall file src l st h n m line pos o, small src -> pieces src l -> reads_on 1 (mkD 0 [] []) l st h ->
  blamed l st h n m line pos -> gaia file src = Ret o -> exit_code o = 1 /\ Report file n m line pos (stdout o).
Proof.
  intros file src l st h n m line pos o HB HP R B G. pose proof (C74_result file src l st h HB HP R) as Q.
  destruct B as [st n m pos line N|st n m line toks C N S]; cbn [result] in Q.
  - destruct Q as (o' & line' & Q & E & N' & Rp & _). rewrite Q in G. injection G as ->. rewrite N in N'. injection N' as <-. auto.
  - rewrite C in Q. destruct Q as (o' & line' & toks' & Q & E & N' & S' & Rp & _). rewrite Q in G. injection G as ->.
    rewrite N in N'. injection N' as <-. rewrite (scanned_fun _ _ _ S S') . auto.
Qed.

(** ** Two reports with the same text *)
Lemma report_same : forall file n m line pos n' m' line' pos' out,
  Report file n m line pos out -> Report file n' m' line' pos' out -> one_line m -> one_line m' ->
  newline_last line -> newline_last line' -> (forall p, pos = Some p -> near line p) -> (forall p, pos' = Some p -> near line' p) ->
  n = n' /\ m = m' /\ pos = pos' /\ exists shown, shown_as line shown /\ shown_as line' shown.
Proof.
  intros file n m line pos n' m' line' pos' out R R' O O' NL NL' P P'. pose proof (Report_inj _ _ _ _ _ _ _ _ _ _ R R' O O') as [-> ->].
  destruct R as (s & S & E), R' as (s' & S' & E'). rewrite E in E'. do 6 apply app_inv_head in E'.
  cbn [app] in E'. apply split_at in E'; [|exact (shown_newline _ _ NL S)|exact (shown_newline _ _ NL' S')]. destruct E' as [-> E'].
  split; [reflexivity|]. split; [reflexivity|]. split; [|exists s'; split; assumption].
  destruct pos as [p|], pos' as [q|].
  - destruct (near_shown _ _ _ (P p eq_refl) S) as [Lp Fp]. destruct (near_shown _ _ _ (P' q eq_refl) S') as [Lq Fq].
    rewrite Fp, Fq in E'. assert (C : column (firstn p s') = column (firstn q s')).
    { apply (f_equal (@List.length _)) in E'. rewrite !app_length, !repeat_length in E'. lia. }
    f_equal. destruct (Nat.lt_trichotomy p q) as [H|[H|H]]; [|exact H|]; exfalso; eapply column_lt in H; eauto; lia.
  - exfalso. destruct (column (firstn p line)); discriminate.
  - exfalso. destruct (column (firstn q line')); discriminate.
  - reflexivity.
Qed.

Lemma in_hex : forall n c, In c (hexadecimal4 n) -> c <> ":"%char.
Proof.
  intros n c H ->. unfold hexadecimal4 in H. apply in_app_or in H as [H|H]; [apply repeat_spec in H; discriminate|].
  revert H. generalize (N.to_hex_uint (Z.to_N n)). intro u.
  assert (K : forall v, ~ In ":"%char (T (HexadecimalString.NilEmpty.string_of_uint v))).
  { unfold T. induction v; cbn; intuition discriminate. }
  destruct u; try apply K; cbn; intuition discriminate.
Qed.

Lemma success_colon : forall b s out, SuccessReport b s out -> ~ In ":"%char out.
Proof.
  unfold SuccessReport. intros b s out -> H. rewrite !in_app_iff in H. pose proof (decimal_numeric b). pose proof (decimal_numeric s).
  destruct H as [H|[H|[H|[H|[H|[H|[H|[H|[H|H]]]]]]]]]; auto; try (eapply in_hex; [exact H|reflexivity]); cbn in H; intuition discriminate.
Qed.

Lemma report_colon : forall file n m line pos out, Report file n m line pos out -> In ":"%char out.
Proof. intros file n m line pos out (s & _ & ->). apply in_or_app. right. left. reflexivity. Qed.

Lemma decimal_no : forall c n, (forall d : Z, 0 <= d <= 9 -> c <> chr (48 + d)) -> c <> "-"%char -> ~ In c (decimal n).
Proof.
  intros c n H M I.
  assert (D : forall k, c = chr (48 + Z.of_nat k) -> (k <= 9)%nat -> False) by (intros k E L; apply (H (Z.of_nat k)); auto; lia).
  assert (K : forall u, ~ In c (T (DecimalString.NilEmpty.string_of_uint u))).
  { unfold T. induction u; cbn; intuition; subst;
      [apply (D 0%nat)|apply (D 1%nat)|apply (D 2%nat)|apply (D 3%nat)|apply (D 4%nat)|apply (D 5%nat)|apply (D 6%nat)|apply (D 7%nat)|apply (D 8%nat)|apply (D 9%nat)]; (reflexivity || lia). }
  assert (K0 : forall u, ~ In c (T (DecimalString.NilZero.string_of_uint u))).
  { intros u. destruct u; try apply K. cbn. intuition; subst. apply (D 0%nat); [reflexivity|lia]. }
  unfold decimal in I. destruct (Z.to_int n) as [u|u]; unfold DecimalString.NilZero.string_of_int in I; [exact (K0 _ I)|].
  destruct I as [I|I]; [congruence|exact (K0 _ I)].
Qed.

Lemma success_same : forall b s b' s' out, SuccessReport b s out -> SuccessReport b' s' out -> b = b' /\ s = s'.
Proof.
  intros b s b' s' out H H'. unfold SuccessReport in *. rewrite H in H'. do 2 apply app_inv_head in H'.
  assert (NS : forall n, ~ In ch_sp (decimal n)).
  { intro n. apply decimal_no; [|discriminate]. intros d L E. apply (f_equal code) in E. rewrite code_chr in E by lia. change (code ch_sp) with 32 in E. lia. }
  assert (H1 := H'). change (T " (0x") with (ch_sp :: T "(0x") in H1. cbn [app] in H1. apply split_at in H1; [|apply NS|apply NS]. destruct H1 as [D _].
  apply decimal_inj in D. subst b'. split; [reflexivity|]. do 5 apply app_inv_head in H'.
  change (T " symbols.") with (ch_sp :: T "symbols.") in H'. cbn [app] in H'. apply split_at in H'; [|apply NS|apply NS].
  apply decimal_inj. tauto.
Qed.

(** ** C79 *)
(** the outcomes of the runs, by what was printed *)
Lemma outcome_cases : forall file src o, small src -> gaia file src = Ret o ->
  (exists st, assembles src st /\ exit_code o = 0 /\ SuccessReport (total_size (d_done st)) (Z.of_nat (List.length (d_env st))) (stdout o)) \/
  (exists n m line pos, faulty src n m line pos /\ exit_code o = 1 /\ Report file n m line pos (stdout o)) \/
  (exit_code o = 1 /\ stdout o = []).
Proof.
  intros file src o HB G. destruct (C74_pieces src) as (l & HP). destruct (C74_total l 1 (mkD 0 [] [])) as (st & h & R).
  pose proof (C74_result file src l st h HB HP R) as Q. destruct h as [|n m pos| |]; cbn [result] in Q.
  - destruct (complete AsBuilt (d_env st) (d_done st)) as [code|[n m]] eqn:C.
    + destruct Q as (o' & Q & E & S & _). rewrite Q in G. injection G as ->. left. exists st. split; [exists l, code; auto|auto].
    + destruct Q as (o' & line & toks & Q & E & N & S & Rp & _). rewrite Q in G. injection G as ->. right. left.
      exists n, m, line, (place_in toks AtOperand). split; [|auto]. exists l, st, AtEnd. split; [exact HP|]. split; [exact R|].
      econstructor; eauto.
  - destruct Q as (o' & line & Q & E & N & Rp & _). rewrite Q in G. injection G as ->. right. left. exists n, m, line, pos. split; [|auto].
    exists l, st, (Rejected n m pos). split; [exact HP|]. split; [exact R|]. constructor. exact N.
  - destruct Q as (o' & Q & E & S & _). rewrite Q in G. injection G as ->. right. right. auto.
  - destruct Q as (u & Q). congruence.
Qed.

(** the text printed tells the exit status *)
Theorem C79_status : forall file src o file' src' o', small src -> small src' -> gaia file src = Ret o -> gaia file' src' = Ret o' ->
  stdout o = stdout o' -> exit_code o = exit_code o'.
Proof.
  intros file src o file' src' o' HB HB' G G' E.
  destruct (outcome_cases _ _ _ HB G) as [(st & _ & X & S)|[(n & m & line & pos & _ & X & R)|[X S]]];
  destruct (outcome_cases _ _ _ HB' G') as [(st' & _ & X' & S')|[(n' & m' & line' & pos' & _ & X' & R')|[X' S']]]; try congruence; exfalso.
  - rewrite <- E in R'. apply success_colon in S. apply report_colon in R'. auto.
  - rewrite E, S' in S. discriminate S.
  - rewrite E in R. apply success_colon in S'. apply report_colon in R. auto.
  - rewrite <- E, S in S'. discriminate S'.
Qed.

(** two programs assembled with the same text have the same size and the same number of labels *)
Theorem C79_success : forall file src st o file' src' st' o', small src -> small src' -> assembles src st -> assembles src' st' ->
  gaia file src = Ret o -> gaia file' src' = Ret o' -> stdout o = stdout o' ->
  total_size (d_done st) = total_size (d_done st') /\ List.length (d_env st) = List.length (d_env st').
Proof.
  intros file src st o file' src' st' o' HB HB' (l & code & HP & R & C) (l' & code' & HP' & R' & C') G G' E.
  pose proof (C74_result file src l st AtEnd HB HP R) as Q. cbn [result] in Q. rewrite C in Q. destruct Q as (o1 & Q & _ & S & _).
  pose proof (C74_result file' src' l' st' AtEnd HB' HP' R') as Q'. cbn [result] in Q'. rewrite C' in Q'. destruct Q' as (o2 & Q' & _ & S' & _).
  rewrite Q in G. injection G as ->. rewrite Q' in G'. injection G' as ->. rewrite <- E in S'.
  destruct (success_same _ _ _ _ _ S S') as [A B]. split; [exact A|lia].
Qed.

(** two faulty programs with the same text have the same error: line number, message, offset of the arrow and the line as shown *)
Theorem C79_report : forall file src o n m line pos src' o' n' m' line' pos', small src -> small src' ->
  faulty src n m line pos -> faulty src' n' m' line' pos' -> gaia file src = Ret o -> gaia file src' = Ret o' -> stdout o = stdout o' ->
  n = n' /\ m = m' /\ pos = pos' /\ exists shown, shown_as line shown /\ shown_as line' shown.
Proof.
  intros file src o n m line pos src' o' n' m' line' pos' HB HB' (l & st & h & HP & R & B) (l' & st' & h' & HP' & R' & B') G G' E.
  destruct (blamed_report _ _ _ _ _ _ _ _ _ _ HB HP R B G) as [_ Q]. destruct (blamed_report _ _ _ _ _ _ _ _ _ _ HB' HP' R' B' G') as [_ Q'].
  rewrite <- E in Q'. destruct (blamed_sound _ _ _ _ _ _ _ R B) as (O & N & P). destruct (blamed_sound _ _ _ _ _ _ _ R' B') as (O' & N' & P').
  exact (report_same _ _ _ _ _ _ _ _ _ _ Q Q' O O' (pieces_newline _ _ _ HP (nth_error_In _ _ N)) (pieces_newline _ _ _ HP' (nth_error_In _ _ N')) P P').
Qed.

(** every program that ends, ends in one of these ways, and says so *)
Theorem C79_tells : forall file src o, small src -> gaia file src = Ret o ->
  (exit_code o = 0 <-> exists st, assembles src st) /\
  ((exists n m line pos, faulty src n m line pos) <-> exit_code o = 1 /\ stdout o <> []).
Proof.
  intros file src o HB G. split; split.
  - intro X. destruct (outcome_cases _ _ _ HB G) as [(st & A & _)|[(n & m & line & pos & _ & X' & _)|[X' _]]]; [eauto|congruence|congruence].
  - intros (st & l & code & HP & R & C). pose proof (C74_result file src l st AtEnd HB HP R) as Q. cbn [result] in Q. rewrite C in Q.
    destruct Q as (o1 & Q & X & _). rewrite Q in G. injection G as ->. exact X.
  - intros (n & m & line & pos & l & st & h & HP & R & B). destruct (blamed_report _ _ _ _ _ _ _ _ _ _ HB HP R B G) as [X Q].
    split; [exact X|]. eapply report_some; exact Q.
  - intros [X S]. destruct (outcome_cases _ _ _ HB G) as [(st & A & X' & _)|[(n & m & line & pos & F & _)|[_ S']]]; [congruence|eauto 6|congruence].
Qed.

(** ** The hypotheses are met *)
(** two sources that differ in blanks behind a line and in the lines before it: the same report *)
Definition told_a : text := T "BEGIN LDA #5" ++ [ch_nl] ++ T " STA $10,Q  ; far" ++ [ch_nl].
Definition told_b : text := T "; nothing" ++ [ch_nl] ++ T " STA $10,Q  ; far   " ++ [ch_nl] ++ T "NOP".
Example C79_case :
  small told_a /\ small told_b /\
  faulty told_a 2 "illegal syntax" (T " STA $10,Q  ; far" ++ [ch_nl]) (Some 9%nat) /\
  faulty told_b 2 "illegal syntax" (T " STA $10,Q  ; far   " ++ [ch_nl]) (Some 9%nat) /\
  exists o o', gaia (T "a.asm") told_a = Ret o /\ gaia (T "a.asm") told_b = Ret o' /\ stdout o = stdout o'.
Proof.
  assert (N : forall t, existsb (Ascii.eqb ch_nl) t = false -> ~ In ch_nl t).
  { intros t H I. assert (existsb (Ascii.eqb ch_nl) t = true); [|congruence]. apply existsb_exists. exists ch_nl. split; [exact I|apply Ascii.eqb_refl]. }
  assert (D : departs_at [TMnemonic "STA"; TNumber 16; TComma; TLabel (T "Q")] 3 /\ ~ trailing_junk [TMnemonic "STA"; TNumber 16; TComma; TLabel (T "Q")]).
  { eapply departs_check. vm_compute. reflexivity. }
  destruct D as [D J].
  split; [vm_compute; reflexivity|]. split; [vm_compute; reflexivity|].
  split; [|split].
  - set (l1 := T "BEGIN LDA #5" ++ [ch_nl]). set (l2 := T " STA $10,Q  ; far" ++ [ch_nl]).
    assert (E : exists st, reads_on 1 (mkD 0 [] []) [l1; l2] st (Rejected 2 "illegal syntax" (Some 9%nat))).
    { eexists. eapply on_next.
      - apply scanned_check; [vm_compute; reflexivity|cbn; lia].
      - apply Understood_line. apply (Line_label_instr (T "BEGIN") "LDA" [THash; TNumber 5] (OImm (Num 5))). repeat constructor.
      - discriminate.
      - vm_compute; reflexivity.
      - eapply (on_syntax _ _ l2 [] [(TMnemonic "STA", 1%nat); (TNumber 16, 5%nat); (TComma, 8%nat); (TLabel (T "Q"), 9%nat)] 3%nat).
        + apply scanned_check; [vm_compute; reflexivity|cbn; lia].
        + exact D.
        + exact J. }
    destruct E as (st & E). exists [l1; l2], st, (Rejected 2 "illegal syntax" (Some 9%nat)).
    split; [|split; [exact E|constructor; reflexivity]].
    exists [l1; l2]. split; [|reflexivity]. apply (cut_line (T "BEGIN LDA #5") l2 [l2]); [apply N; reflexivity|vm_compute; lia|].
    apply (cut_line (T " STA $10,Q  ; far") [] []); [apply N; reflexivity|vm_compute; lia|constructor].
  - set (l1 := T "; nothing" ++ [ch_nl]). set (l2 := T " STA $10,Q  ; far   " ++ [ch_nl]).
    assert (E : exists st, reads_on 1 (mkD 0 [] []) [l1; l2; T "NOP"] st (Rejected 2 "illegal syntax" (Some 9%nat))).
    { eexists. eapply on_next.
      - apply scanned_check; [vm_compute; reflexivity|cbn; lia].
      - apply Understood_line. apply Line_empty.
      - discriminate.
      - reflexivity.
      - eapply (on_syntax _ _ l2 _ [(TMnemonic "STA", 1%nat); (TNumber 16, 5%nat); (TComma, 8%nat); (TLabel (T "Q"), 9%nat)] 3%nat).
        + apply scanned_check; [vm_compute; reflexivity|cbn; lia].
        + exact D.
        + exact J. }
    destruct E as (st & E). exists [l1; l2; T "NOP"], st, (Rejected 2 "illegal syntax" (Some 9%nat)).
    split; [|split; [exact E|constructor; reflexivity]].
    exists [l1; l2; T "NOP"]. split; [|reflexivity]. apply (cut_line (T "; nothing") (l2 ++ T "NOP") [l2; T "NOP"]); [apply N; reflexivity|vm_compute; lia|].
    apply (cut_line (T " STA $10,Q  ; far   ") (T "NOP") [T "NOP"]); [apply N; reflexivity|vm_compute; lia|].
    apply cut_last; [apply N; reflexivity|vm_compute; lia].
  - do 2 eexists. split; [vm_compute; reflexivity|]. split; [vm_compute; reflexivity|]. reflexivity.
Qed.

(** ... and two programs with the same size and number of labels *)
Example C79_success_case : exists o o' st st', gaia (T "a.asm") (T "NOP") = Ret o /\ gaia (T "a.asm") (T "PHA") = Ret o' /\ stdout o = stdout o' /\
  binary o <> binary o' /\ assembles (T "NOP") st /\ assembles (T "PHA") st' /\ total_size (d_done st) = 1.
Proof.
  assert (A : forall m, m = "NOP"%string \/ m = "PHA"%string -> exists st, assembles (T m) st /\ total_size (d_done st) = 1).
  { intros m M.
    assert (P : pieces (T m) [T m]).
    { exists [T m]. split; [|destruct M as [-> | ->]; reflexivity]. destruct M as [-> | ->]; (apply cut_last; [vm_compute; intuition discriminate|vm_compute; lia]). }
    eexists. split; [exists [T m]; eexists; split; [exact P|]|]; [split|].
    - eapply on_next; [apply (scanned_check _ [(TMnemonic m, 0%nat)]); [destruct M as [-> | ->]; vm_compute; reflexivity|cbn; lia]| | | |].
      + apply Understood_line, (Line_instr m [] ONone), Op_none.
      + discriminate.
      + instantiate (1 := mkD 1 [] [mkPlaced 1 (mkItem 0 m IMP (if String.eqb m "NOP" then 234 else 72) 1 None) (Some [])]). destruct M as [-> | ->]; vm_compute; reflexivity.
      + constructor.
    - reflexivity.
    - reflexivity. }
  destruct (A "NOP"%string) as (st & H & S); auto. destruct (A "PHA"%string) as (st' & H' & _); auto.
  do 2 eexists. exists st, st'. split; [vm_compute; reflexivity|]. split; [vm_compute; reflexivity|]. split; [reflexivity|]. split; [discriminate|]. auto.
Qed.
