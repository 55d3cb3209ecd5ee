(** Prop_Lexer.v -- C03, C04, C05, C09, C10: literals, labels, lines of tokens. *)
From Verif Require Import Base Proof_Base Model_Opcode Model_Error Model_Lexer Model_Main
  Spec_Isa Spec_Text Spec_Link Spec_Report Proof_Opcode Proof_Chars Proof_Error Proof_Lex1 Proof_Lex2.

(** ** C03 *)
(** a numeral (any base, any number of digits, leading zeros, letter case) of value at
    most $FFFF is accepted whole, with its mathematical value *)
Theorem C03_literal_value : forall off w n s tk instr,
  numeral w n -> delimited s -> n <= 0xFFFF ->
  exists tk', lex off (w ++ s) tk instr = Ret (Z.of_nat (List.length w), tk', instr) /\
    tk_type tk' = TOKEN_LITERAL /\ tk_value tk' = n /\ tk_loc tk' = Some off.
Proof.
  intros off w n s tk instr Hn Hd Hv.
  assert (0 <= n) by (destruct Hn as (b & ds & _ & K); eapply number_nonneg; eauto).
  exists (tk_next tk (TNumber n, off)).
  rewrite (lex_numeral off w n n s tk instr Hn); auto.
  split; auto. rewrite Z.mod_small; auto. split; [|lia].
  assert (0xFFFF < 2 ^ 64) by reflexivity. lia.
Qed.

(** a numeral above $FFFF and below 2^64 is rejected with the documented error, at
    its first character.  Missing from C03: values of 2^64 and more, for which the
    statement is false (C03_refuted). *)
Theorem C03_too_big_partial : forall off w n s tk instr,
  numeral w n -> delimited s -> 0xFFFF < n < 2 ^ 64 ->
  exists tk', lex off (w ++ s) tk instr = Ret (ERROR_TOO_BIG_LITERAL, tk', instr) /\
    tk_error_char tk' = Some off.
Proof.
  intros off w n s tk instr Hn Hd Hv.
  destruct (lex_bad off (w ++ s) tk instr TooBigLiteral 0) as (tk' & E & P).
  - eapply bad_value; eauto. intros v [-> K]. rewrite Z.mod_small in K; lia.
  - exists tk'. rewrite Nat.add_0_r in P. auto.
Qed.

(** the exact rule of the code: the value is taken modulo 2^64 *)
Theorem C03_exact_rule : forall off w n s tk instr, numeral w n -> delimited s ->
  exists tk' r, lex off (w ++ s) tk instr = Ret (r, tk', instr) /\
    (n mod 2 ^ 64 <= 0xFFFF -> r = Z.of_nat (List.length w) /\ tk_type tk' = TOKEN_LITERAL /\
                              tk_value tk' = n mod 2 ^ 64) /\
    (0xFFFF < n mod 2 ^ 64 -> r = ERROR_TOO_BIG_LITERAL).
Proof.
  intros off w n s tk instr Hn Hd.
  destruct (Z_le_gt_dec (n mod 2 ^ 64) 0xFFFF) as [K|K].
  - exists (tk_next tk (TNumber (n mod 2 ^ 64), off)), (Z.of_nat (List.length w)).
    rewrite (lex_numeral off w n (n mod 2 ^ 64) s tk instr Hn); [|split; auto|auto].
    split; [reflexivity|]. split; [auto|lia].
  - destruct (lex_bad off (w ++ s) tk instr TooBigLiteral 0) as (tk' & E & P).
    { eapply bad_value; eauto. intros v [-> K']. lia. }
    exists tk', ERROR_TOO_BIG_LITERAL. split; [exact E|]. split; [lia|auto].
Qed.

Definition wrapping_source : text := T "LDA #$10000000000000001" ++ [ch_nl].

(** the full claim fails: a literal of value 2^64+1 assembles as 1 *)
Theorem C03_refuted :
  numeral (T "$10000000000000001") (2 ^ 64 + 1) /\
  gaia (T "a.s") wrapping_source =
    Ret (mkOutcome 0 (summary 2 0) [0xA9; 1]).
Proof.
  split; [|vm_compute; reflexivity].
  exists Hex, (T "10000000000000001"). split; [reflexivity|].
  apply number_eval; [discriminate|reflexivity|vm_compute; reflexivity].
Qed.

Example C03_example : numeral (T "$00fF") 255 /\ numeral (T "%0101") 5 /\ numeral (T "65535") 65535 /\
  delimited (T " ; c").
Proof.
  split; [|split; [|split]].
  - exists Hex, (T "00fF"). split; [reflexivity|].
    apply number_eval; [discriminate|reflexivity|vm_compute; reflexivity].
  - exists Bin, (T "0101"). split; [reflexivity|].
    apply number_eval; [discriminate|reflexivity|vm_compute; reflexivity].
  - exists Dec, (T "65535"). split; [reflexivity|].
    apply number_eval; [discriminate|reflexivity|vm_compute; reflexivity].
  - left; left; reflexivity.
Qed.

(** ** C04: wherever it stands in a line of at most 8 tokens before it, a '$' or '%'
    with no digit after it, and a character that is neither a digit of the base nor a
    delimiter inside of a numeral, stop the line with 'illegal character', the
    reported position being that character *)
Theorem C04_missing_digit : forall line toks first off b rest lexer tk instr n,
  List.length (lx_seq lexer) = 8%nat ->
  Reads literal_wrapping true 0 line toks first off (prefix b ++ rest) ->
  (List.length toks <= 8)%nat ->
  b <> Dec -> (forall c rest' d, rest = c :: rest' -> ~ digit_of b c d) ->
  exists lexer' tk' instr' out,
    lex_line line lexer tk instr n = Ret (ERROR_ILLEGAL_CHAR, lexer', tk', instr', out) /\
    Report (lx_file lexer) n "illegal character" line (Some (off + 1)%nat) out.
Proof.
  intros line toks first off b rest lexer tk instr n H8 R L Hb Hd.
  apply (lex_line_fails line (lx_file lexer) n lexer tk instr IllegalCharacter); auto.
  do 5 eexists. split; [exact R|]. split; [exact L|]. split; [|reflexivity].
  apply bad_no_digit; auto.
Qed.

Theorem C04_bad_digit : forall line toks first off b ds v c rest lexer tk instr n,
  List.length (lx_seq lexer) = 8%nat ->
  Reads literal_wrapping true 0 line toks first off (prefix b ++ ds ++ c :: rest) ->
  (List.length toks <= 8)%nat ->
  number b ds v -> (forall d, ~ digit_of b c d) -> ~ delimiter c ->
  exists lexer' tk' instr' out,
    lex_line line lexer tk instr n = Ret (ERROR_ILLEGAL_CHAR, lexer', tk', instr', out) /\
    Report (lx_file lexer) n "illegal character" line
           (Some (off + List.length (prefix b ++ ds))%nat) out.
Proof.
  intros line toks first off b ds v c rest lexer tk instr n H8 R L Hn Hc Hd.
  rewrite app_length.
  apply (lex_line_fails line (lx_file lexer) n lexer tk instr IllegalCharacter); auto.
  do 5 eexists. split; [exact R|]. split; [exact L|]. split; [|reflexivity].
  eapply bad_digit; eauto.
Qed.

Lemma mnemonic_word : forall w name, identb w = true -> is_name name -> map upper w = T name ->
  (List.length w <= 63)%nat -> word literal_wrapping w (TMnemonic name).
Proof. intros. apply word_ident; auto using identb_ok. apply means_mnemonic; auto. Qed.

Lemma name_of : forall m name, mnemonic_name m = Some name -> is_name name.
Proof. intros. apply is_name_mnemonic. eauto. Qed.

Example C04_example :
  Reads literal_wrapping true 0 (T "LDA $1G2") [(TMnemonic "LDA", 0%nat)] false 4
        (prefix Hex ++ T "1" ++ "G"%char :: T "2") /\
  number Hex (T "1") 1 /\ (forall d, ~ digit_of Hex "G" d) /\ ~ delimiter "G"%char.
Proof.
  split; [|split; [|split]].
  - apply (Reads_word literal_wrapping true 0 (T "LDA") (TMnemonic "LDA") (T " $1G2")).
    + apply mnemonic_word; try reflexivity; [|cbn; lia]. apply (name_of LDA). reflexivity.
    + left. left; left; reflexivity.
    + cbn [List.length T list_ascii_of_string]. apply Reads_blank; [left; reflexivity|]. constructor.
  - apply number_eval; [discriminate|reflexivity|reflexivity].
  - intros d H. inversion H; vm_compute in *; intuition congruence.
  - intro K. chars.
Qed.

(** ** C05 *)
(** a word of at most 63 characters becomes one token holding all of it, in upper case *)
Theorem C05_label_whole : forall off w s tk instr,
  ident w -> (List.length w <= 63)%nat -> delimited s \/ colon_next s ->
  exists tk' instr', lex off (w ++ s) tk instr = Ret (Z.of_nat (List.length w), tk', instr') /\
    tk_str tk' = map upper w.
Proof.
  intros off w s tk instr I L D.
  assert (M : ident_means w (means w)) by (apply ident_means_iff; reflexivity).
  do 2 eexists. split; [apply (lex_ident off w s tk instr (means w) I L D M)|].
  cbn [tk_next tk_str fst]. apply text_of_means, M.
Qed.

(** hence two labels that differ (up to case) anywhere in their 63 characters are
    different labels *)
Theorem C05_all_significant : forall off w1 w2 s1 s2 tk instr tk1 i1 n1 tk2 i2 n2,
  ident w1 -> ident w2 -> (List.length w1 <= 63)%nat -> (List.length w2 <= 63)%nat ->
  delimited s1 \/ colon_next s1 -> delimited s2 \/ colon_next s2 ->
  lex off (w1 ++ s1) tk instr = Ret (n1, tk1, i1) ->
  lex off (w2 ++ s2) tk instr = Ret (n2, tk2, i2) ->
  (tk_str tk1 = tk_str tk2 <-> same_but_case w1 w2).
Proof.
  intros. destruct (C05_label_whole off w1 s1 tk instr) as (a & b & E1 & F1); auto.
  destruct (C05_label_whole off w2 s2 tk instr) as (a' & b' & E2 & F2); auto.
  rewrite E1 in *. rewrite E2 in *.
  match goal with H : Ret _ = Ret (n1, _, _) |- _ => injection H; intros; subst end.
  match goal with H : Ret _ = Ret (n2, _, _) |- _ => injection H; intros; subst end.
  rewrite F1, F2. reflexivity.
Qed.

(** a longer word stops the line with 'label exceeds 63 characters' at its start *)
Theorem C05_too_long : forall line toks first off w rest lexer tk instr n,
  List.length (lx_seq lexer) = 8%nat ->
  Reads literal_wrapping true 0 line toks first off (w ++ rest) -> (List.length toks <= 8)%nat ->
  ident w -> (64 <= List.length w)%nat ->
  exists lexer' tk' instr' out,
    lex_line line lexer tk instr n = Ret (ERROR_TOO_LONG_LABEL, lexer', tk', instr', out) /\
    Report (lx_file lexer) n "label exceeds 63 characters" line (Some off) out.
Proof.
  intros line toks first off w rest lexer tk instr n H8 R L I Lw.
  apply (lex_line_fails line (lx_file lexer) n lexer tk instr TooLongLabel); auto.
  do 5 eexists. split; [exact R|]. split; [exact L|]. split; [|rewrite Nat.add_0_r; reflexivity].
  destruct (run_prefix w 64 Lw) as [E1 E2]. rewrite E1, <- app_assoc.
  apply bad_ident_length; [|exact E2].
  destruct I as (c & cs & -> & Hl & F). cbn [firstn]. exists c, (firstn 63 cs).
  split; [reflexivity|]. split; auto. apply firstn_forall, F.
Qed.

Lemma run_toks_good : forall first off s toks f' o' s', Reads literal_wrapping first off s toks f' o' s' ->
  forall tk, good_tk tk -> Forall good_tk (run_toks tk toks).
Proof.
  intros first off s toks f' o' s' H. induction H; intros tk G; cbn [run_toks]; auto.
  - constructor; [|apply IHReads]; eapply punct_good; eauto.
  - constructor; [|apply IHReads]; eapply word_good; eauto.
  - constructor; [|apply IHReads]; eapply word_good; eauto.
Qed.

Lemma seq_of_good : forall line toks, Lexes literal_wrapping true 0 line toks ->
  Forall good_tk (seq_of toks).
Proof.
  intros line toks H. destruct (Lexes_Reads _ _ _ _ _ H) as (f & o & s & R & _).
  unfold seq_of, pad. apply Forall_app. split.
  - eapply run_toks_good; eauto. apply init_good.
  - apply Forall_forall. intros t Ht. apply repeat_spec in Ht. subst. apply init_good.
Qed.

(** whatever the line, the 64-byte buffers are never overrun, and the texts stored in
    the tokens are at most 63 characters long *)
Theorem C05_no_overrun : forall line lexer tk instr n, List.length (lx_seq lexer) = 8%nat ->
  lex_line line lexer tk instr n <> Undef UbTokenStr /\
  forall lexer' tk' instr' out,
    lex_line line lexer tk instr n = Ret (LEXER_SUCCESS, lexer', tk', instr', out) ->
    Forall (fun t => (List.length (tk_str t) < MAX_TOKEN_STR_LEN)%nat) (lx_seq lexer').
Proof.
  intros line lexer tk instr n H8.
  destruct (lex_outcomes line) as [(toks & HL & L)|[(e & pos & HF)|[HM|HU]]].
  - rewrite (lex_line_ok line (lx_file lexer) n lexer tk instr toks) by auto.
    split; [discriminate|]. intros lexer' tk' instr' out E. injection E as <- _ _ _.
    cbn [lx_seq]. eapply Forall_impl; [|eapply seq_of_good; eauto]. intros t [_ K]. exact K.
  - destruct (lex_line_fails line (lx_file lexer) n lexer tk instr e pos) as (a & b & c & d & E & _); auto.
    rewrite E. split; [discriminate|]. intros lexer' tk' instr' out E'. injection E' as K _ _ _ _.
    destruct e; discriminate K.
  - destruct (lex_line_many line (lx_file lexer) n lexer tk instr) as (a & b & c & E); auto.
    rewrite E. split; [discriminate|]. intros lexer' tk' instr' out E'. discriminate E'.
  - rewrite (lex_line_undef line (lx_file lexer) n lexer tk instr) by auto.
    split; [discriminate|]. intros; discriminate.
Qed.

Example C05_example : ident (repeat "x"%char 63) /\ (List.length (repeat "x"%char 63) <= 63)%nat /\
  ident (repeat "x"%char 64) /\
  Reads literal_wrapping true 0 (repeat "x"%char 64 ++ []) [] true 0 (repeat "x"%char 64 ++ []).
Proof.
  split; [apply identb_ok; reflexivity|]. split; [cbn; lia|].
  split; [apply identb_ok; reflexivity|]. constructor.
Qed.

(** ** C09: the result of lexing a line (tokens, instruction, error, output) does not
    depend on what the reused structs contain; only the array must have its 8 tokens
    and the file name is kept *)
Theorem C09_lexing_is_local : forall line lexer1 lexer2 tk1 tk2 instr1 instr2 n,
  List.length (lx_seq lexer1) = 8%nat -> List.length (lx_seq lexer2) = 8%nat ->
  lx_file lexer1 = lx_file lexer2 ->
  lex_line line lexer1 tk1 instr1 n = lex_line line lexer2 tk2 instr2 n.
Proof.
  intros. rewrite (lex_line_LL line (lx_file lexer1) n lexer1) by auto.
  rewrite (lex_line_LL line (lx_file lexer1) n lexer2) by auto. reflexivity.
Qed.

(** the array keeps its 8 tokens *)
Theorem C09_eight_tokens_kept : forall line lexer tk instr n r lexer' tk' instr' out,
  List.length (lx_seq lexer) = 8%nat ->
  lex_line line lexer tk instr n = Ret (r, lexer', tk', instr', out) -> 0 <= r ->
  List.length (lx_seq lexer') = 8%nat /\ lx_file lexer' = lx_file lexer.
Proof.
  intros line lexer tk instr n r lexer' tk' instr' out H8 E Hr.
  destruct (lex_outcomes line) as [(toks & HL & L)|[(e & pos & HF)|[HM|HU]]].
  - rewrite (lex_line_ok line (lx_file lexer) n lexer tk instr toks) in E by auto.
    injection E as _ <- _ _ _. cbn [lx_seq lx_file]. split; auto. apply pad_length.
    rewrite run_toks_length. exact L.
  - destruct (lex_line_fails line (lx_file lexer) n lexer tk instr e pos) as (a & b & c & d & E' & _); auto.
    rewrite E' in E. injection E as <- _ _ _ _. pose proof (error_code_neg e). lia.
  - destruct (lex_line_many line (lx_file lexer) n lexer tk instr) as (a & b & c & E'); auto.
    rewrite E' in E. injection E as <- _ _ _ _. discriminate Hr || (exfalso; apply Hr; reflexivity).
  - rewrite (lex_line_undef line (lx_file lexer) n lexer tk instr) in E by auto. discriminate.
Qed.

Example C09_example :
  List.length (lx_seq (init_lexer (T "f"))) = 8%nat /\
  List.length (lx_seq (mkLexer (repeat (mkTok TOKEN_LABEL (T "JUNK") 77 (Some 3%nat) None) 8) 5
                               (Some 2) None 9 (T "f"))) = 8%nat.
Proof. split; reflexivity. Qed.

(** ** C10 *)
(** a struct Token holds the token [t] found at offset [o] *)
Definition holds (k : Token) (p : tok * nat) : Prop :=
  tok_of k = Some (fst p) /\ tk_loc k = Some (snd p).
Definition null_token (k : Token) : Prop := tok_of k = None.

Lemma tok_of_next : forall tk p,
  tok_of (tk_next tk p) = Some (fst p).
Proof.
  intros tk [t o]. unfold tok_of. cbn [tk_next tk_type tk_str tk_value fst].
  destruct t as [n|n|v| | | | | | | | | |[]]; cbn; try reflexivity.
  unfold T. rewrite string_of_list_ascii_of_string. reflexivity.
Qed.

Lemma run_toks_holds : forall toks tk, Forall2 holds (run_toks tk toks) toks.
Proof.
  induction toks as [|p toks IH]; intro tk; cbn [run_toks]; constructor; auto.
  split; [apply tok_of_next|reflexivity].
Qed.

(** [lex_line] succeeds exactly when the line consists of at most 8 tokens (each one a
    maximal word or a punctuation character, up to the end of the line or a comment),
    and then the sequence holds exactly these tokens in order, with their offsets,
    followed by null tokens up to 8 *)
Theorem C10_tokens_exact : forall line lexer tk instr n, List.length (lx_seq lexer) = 8%nat ->
  forall toks, (List.length toks <= 8)%nat ->
  (Lexes literal_wrapping true 0 line toks <->
   exists lexer' tk' instr' out held nulls,
     lex_line line lexer tk instr n = Ret (LEXER_SUCCESS, lexer', tk', instr', out) /\
     lx_seq lexer' = held ++ nulls /\ List.length (held ++ nulls) = 8%nat /\
     Forall2 holds held toks /\ Forall null_token nulls).
Proof.
  intros line lexer tk instr n H8 toks L. split.
  - intro HL. do 4 eexists. exists (run_toks init_token toks), (repeat init_token (8 - List.length toks)).
    split; [apply (lex_line_ok line (lx_file lexer) n lexer tk instr toks); auto|].
    cbn [lx_seq]. unfold seq_of, pad. rewrite ?run_toks_length. split; [reflexivity|].
    split; [rewrite app_length, repeat_length, run_toks_length; lia|].
    split; [apply run_toks_holds|]. apply Forall_forall. intros t Ht. apply repeat_spec in Ht. subst.
    reflexivity.
  - intros (lexer' & tk' & instr' & out & held & nulls & E & Es & El & Fh & Fn).
    destruct (lex_outcomes line) as [(toks' & HL & L')|[(e & pos & HF)|[HM|HU]]].
    + rewrite (lex_line_ok line (lx_file lexer) n lexer tk instr toks') in E by auto.
      injection E as <- _ _ _. cbn [lx_seq] in Es. unfold seq_of, pad in Es.
      assert (toks = toks') as ->; [|exact HL].
      clear - Es Fh Fn. rewrite run_toks_length in Es.
      assert (G : Forall null_token (repeat init_token (8 - List.length toks'))).
      { apply Forall_forall. intros t Ht. apply repeat_spec in Ht. subst. reflexivity. }
      pose proof (run_toks_holds toks' init_token) as F'.
      revert Es Fh F' G. generalize (run_toks init_token toks') as l.
      generalize (repeat init_token (8 - List.length toks')) as r. intros r l Es Fh F' G.
      revert toks toks' l Es Fh F'. induction held as [|h held IH]; intros toks toks' l Es Fh F'.
      * inversion Fh; subst. destruct l as [|x l]; [inversion F'; subst; reflexivity|].
        inversion F' as [|? ? ? ? [K _]]; subst. cbn in Es. subst nulls.
        inversion Fn; subst. unfold null_token in *. congruence.
      * inversion Fh as [|? p ? toks1 [K1 K2] Fh']; subst. destruct l as [|x l].
        { cbn in Es. rewrite Es in G. inversion G; subst. unfold null_token in *. congruence. }
        inversion F' as [|? p' ? toks2 [K1' K2'] F2]; subst. cbn in Es. injection Es as <- Es.
        f_equal; [destruct p, p'; cbn in *; congruence|]. eapply IH; eauto.
    + destruct (lex_line_fails line (lx_file lexer) n lexer tk instr e pos) as (a & b & c & d & E' & _); auto.
      rewrite E' in E. injection E as K _ _ _ _. destruct e; discriminate K.
    + destruct (lex_line_many line (lx_file lexer) n lexer tk instr) as (a & b & c & E'); auto.
      rewrite E' in E. discriminate E.
    + rewrite (lex_line_undef line (lx_file lexer) n lexer tk instr) in E by auto. discriminate.
Qed.

(** a line of more than 8 tokens is rejected *)
Theorem C10_too_many_rejected : forall line toks lexer tk instr n,
  List.length (lx_seq lexer) = 8%nat ->
  Lexes literal_wrapping true 0 line toks -> (8 < List.length toks)%nat ->
  exists lexer' tk' instr' out,
    lex_line line lexer tk instr n = Ret (ERROR_TOO_MANY_TOKENS, lexer', tk', instr', out).
Proof.
  intros line toks lexer tk instr n H8 HL L.
  destruct (lex_line_many line (lx_file lexer) n lexer tk instr) as (a & b & c & E); eauto.
  destruct (Lexes_Reads _ _ _ _ _ HL) as (f & o & s & R & _).
  destruct (Reads_prefix _ _ _ _ _ _ _ _ R 9) as (f2 & o2 & s2 & R2); [lia|].
  exists (firstn 9 toks), f2, o2, s2. split; auto. rewrite firstn_length. lia.
Qed.

(** [lex_line] has no other behaviour than these: the tokens, a reported lexical
    error, too many tokens, or undefined behaviour because of a byte $80..$FE *)
Theorem C10_outcomes : forall line lexer tk instr n, List.length (lx_seq lexer) = 8%nat ->
  (exists toks, Lexes literal_wrapping true 0 line toks /\ (List.length toks <= 8)%nat) \/
  (exists e pos lexer' tk' instr' out, LexFails literal_wrapping line e pos /\
     lex_line line lexer tk instr n = Ret (error_code_of e, lexer', tk', instr', out) /\
     Report (lx_file lexer) n (message_of_error e) line (Some pos) out) \/
  (exists lexer' tk' instr',
     lex_line line lexer tk instr n = Ret (ERROR_TOO_MANY_TOKENS, lexer', tk', instr', [])) \/
  ((exists c, In c line /\ 128 <= code c < 255) /\
   lex_line line lexer tk instr n = Undef UbCtype).
Proof.
  intros line lexer tk instr n H8.
  destruct (lex_outcomes line) as [A|[(e & pos & HF)|[HM|HU]]]; auto.
  - right; left.
    destruct (lex_line_fails line (lx_file lexer) n lexer tk instr e pos) as (a & b & c & d & E & R); auto.
    exists e, pos, a, b, c, d. auto.
  - right; right; left.
    destruct (lex_line_many line (lx_file lexer) n lexer tk instr) as (a & b & c & E); auto. eauto.
  - right; right; right. split; [|apply (lex_line_undef line (lx_file lexer)); auto].
    destruct HU as (toks & f & o & s & R & _ & H).
    destruct (Reads_split _ _ _ _ _ _ _ _ R) as (pre & -> & _).
    destruct H as [c s H|w c s _ _ H|w c s _ _ H]; exists c; (split; [|exact H]).
    + apply in_or_app; right; left; reflexivity.
    + apply in_or_app; right. apply in_or_app; right; left; reflexivity.
    + apply in_or_app; right. right. apply in_or_app; right; left; reflexivity.
Qed.

Example C10_example :
  exists lexer' tk' instr' out,
    lex_line (T "Loop: lda ($1F),Y;c") (init_lexer (T "f")) init_token init_instruction 1 =
      Ret (LEXER_SUCCESS, lexer', tk', instr', out) /\
    Lexes literal_wrapping true 0 (T "Loop: lda ($1F),Y;c")
      [(TLabel (T "LOOP"), 0%nat); (TMnemonic "LDA", 6%nat); (TOpen, 10%nat); (TNumber 31, 11%nat);
       (TClose, 14%nat); (TComma, 15%nat); (TY, 16%nat)].
Proof.
  do 4 eexists. split; [vm_compute; reflexivity|].
  apply (C10_tokens_exact _ (init_lexer (T "f")) init_token init_instruction 1);
    [reflexivity|cbn; lia|].
  do 6 eexists. split; [vm_compute; reflexivity|]. cbn [lx_seq].
  match goal with |- (?a :: ?b :: ?c :: ?d :: ?e :: ?f :: ?g :: ?r) = ?h ++ ?n /\ _ =>
    unify h [a; b; c; d; e; f; g]; unify n r end.
  split; [reflexivity|]. split; [reflexivity|].
  split; repeat constructor.
Qed.
