(** Proof_Lex1.v -- one token: the function [lex] of the model computes what
    Spec_Text says. *)
From Verif Require Import Base Proof_Base Model_Opcode Model_Error Model_Lexer
  Spec_Isa Spec_Text Spec_Link Proof_Opcode Proof_Chars.

(** ** The token struct after a token of the specification was read *)
Definition type_of (t : tok) : TokenType :=
  match t with
  | TLabel _ => TOKEN_LABEL
  | TMnemonic _ => TOKEN_INSTRUCTION
  | TNumber _ => TOKEN_LITERAL
  | TX => TOKEN_X_REGISTER
  | TY => TOKEN_Y_REGISTER
  | TA => TOKEN_ACCUMULATOR
  | THash => TOKEN_IMMEDIATE
  | TOpen => TOKEN_OPEN_PARENTHESIS
  | TClose => TOKEN_CLOSE_PARENTHESIS
  | TComma => TOKEN_COMMA
  | TEqual => TOKEN_EQUAL_SIGN
  | TStar => TOKEN_BASE
  | TDirective DDefine => TOKEN_DEFINE_DIRECTIVE
  | TDirective DEqu => TOKEN_EQU_DIRECTIVE
  | TDirective DOrg => TOKEN_ORG_DIRECTIVE
  | TDirective DEnd => TOKEN_END_DIRECTIVE
  end.

Definition tok_text (t : tok) (old : text) : text :=
  match t with
  | TLabel n => n
  | TMnemonic n => T n
  | TNumber _ => old
  | TX => T "X" | TY => T "Y" | TA => T "A"
  | THash => T "#" | TOpen => T "(" | TClose => T ")" | TComma => T "," | TEqual => T "="
  | TStar => T "*"
  | TDirective DDefine => T ".DEFINE"
  | TDirective DEqu => T ".EQU"
  | TDirective DOrg => T ".ORG"
  | TDirective DEnd => T ".END"
  end.

Definition tok_value (t : tok) (old : Z) : Z := match t with TNumber v => v | _ => old end.

Definition tk_next (tk : Token) (p : tok * nat) : Token :=
  mkTok (type_of (fst p)) (tok_text (fst p) (tk_str tk)) (tok_value (fst p) (tk_value tk))
        (tk_error_char tk) (Some (snd p)).

Definition instr_next (i : Instruction) (t : tok) : Instruction :=
  match t with
  | TMnemonic n => let m := str_to_mnemonic (T n) in
                   mkInstr m (get_addr_bitfield m) (i_bitflag i) (i_opcode i)
  | _ => i
  end.

Definition error_code_of (e : lexical_error) : Z :=
  match e with
  | IllegalCharacter => ERROR_ILLEGAL_CHAR
  | TooBigLiteral => ERROR_TOO_BIG_LITERAL
  | TooLongLabel => ERROR_TOO_LONG_LABEL
  | IllegalDirective => ERROR_ILLEGAL_DIRECTIVE
  end.

(** ** Literals *)
Lemma u64_idem : forall a b, u64 (u64 a + b) = u64 (a + b).
Proof. intros. unfold u64. rewrite Zplus_mod_idemp_l. reflexivity. Qed.

Lemma u64_mul : forall a b, u64 (u64 a * b) = u64 (a * b).
Proof. intros. unfold u64. rewrite Zmult_mod_idemp_l. reflexivity. Qed.

Lemma converter_not_error : forall b c d, digit_of b c d ->
  negb (converter b c =? ERROR_ILLEGAL_CHAR) = true.
Proof.
  intros b c d H. rewrite (converter_digit b c d H). apply digit_range in H.
  unfold ERROR_ILLEGAL_CHAR. destruct (Z.eqb_spec d (-3)); [lia|reflexivity].
Qed.

Lemma literal_loop_number : forall b ds n, number b ds n -> forall rest total k,
  literal_loop (converter b) (radix b) (ds ++ rest) (u64 total) k =
  literal_loop (converter b) (radix b) rest
    (u64 (total * radix b ^ Z.of_nat (List.length ds) + n)) (k + List.length ds).
Proof.
  intros b ds n H. induction H; intros rest total k.
  - cbn [app literal_loop]. rewrite (converter_not_error b c d H). rewrite (converter_digit b c d H).
    f_equal.
    + rewrite u64_idem, <- (u64_idem (u64 total * radix b)), u64_mul, u64_idem.
      cbn [List.length]. rewrite Z.pow_1_r. reflexivity.
    + cbn [List.length]. lia.
  - cbn [app literal_loop]. rewrite (converter_not_error b c d H). rewrite (converter_digit b c d H).
    rewrite u64_idem. rewrite <- u64_idem, u64_mul, u64_idem. rewrite IHnumber. f_equal.
    + f_equal. cbn [List.length]. rewrite Nat2Z.inj_succ, Z.pow_succ_r by lia. ring.
    + cbn [List.length]. lia.
Qed.

Lemma literal_loop_stop : forall b s total k, delimited s ->
  literal_loop (converter b) (radix b) s total k = (true, total, k).
Proof.
  intros b [|c s] total k H; cbn in *; auto.
  rewrite (converter_not b c).
  - cbn. apply end_token_spec in H. rewrite H. reflexivity.
  - intros d D. apply digit_word_char in D. apply word_char_not_delim in D. tauto.
Qed.

Lemma literal_loop_bad : forall b c s total k, (forall d, ~ digit_of b c d) -> ~ delimiter c ->
  literal_loop (converter b) (radix b) (c :: s) total k = (false, total, k).
Proof.
  intros b c s total k H N. cbn. rewrite (converter_not b c H). cbn.
  rewrite (not_end_token c N). reflexivity.
Qed.

Definition start_of (literal : text) : option (Z * (ascii -> Z) * nat) :=
  let c := hdc literal in
  if Ascii.eqb c "$"%char then Some (16, hex_digit_to_int, 1%nat)
  else if Ascii.eqb c "%"%char then Some (2, bin_digit_to_int, 1%nat)
  else if in_range 48 (schar c) 57 then Some (10, dec_digit_to_int, 0%nat)
  else None.

Lemma start_of_prefix : forall b s,
  (b = Dec -> exists c s' d, s = c :: s' /\ digit_of Dec c d) ->
  start_of (prefix b ++ s) = Some (radix b, converter b, List.length (prefix b)) /\
  skipn (List.length (prefix b)) (prefix b ++ s) = s.
Proof.
  intros [] s H; try (split; reflexivity).
  destruct (H eq_refl) as (c & s' & d & -> & D). split; auto.
  unfold start_of, prefix. cbn [app hdc List.length]. inversion D; subst.
  pose proof (code_range c).
  rewrite !eqb_code. char_codes.
  destruct (Z.eqb_spec (code c) 36); [lia|]. destruct (Z.eqb_spec (code c) 37); [lia|].
  rewrite schar_small by lia.
  destruct (in_range 48 (code c) 57) eqn:E; auto. apply in_range_false in E. lia.
Qed.

Lemma lex_literal_unfold : forall off literal tk,
  lex_literal off literal tk =
  match start_of literal with
  | None => (ERROR_ILLEGAL_CHAR, tk_set_error tk off)
  | Some (base, converter, prefix) =>
    let '(stopped, total, num_chars) :=
      literal_loop converter base (skipn prefix literal) 0 prefix in
    if negb stopped then (ERROR_ILLEGAL_CHAR, tk_set_error tk (off + num_chars))
    else if Nat.eqb num_chars 0 then (ERROR_ILLEGAL_CHAR, tk_set_error tk (off + num_chars))
    else if Nat.eqb num_chars 1 && ((base =? 2) || (base =? 16)) then
      (ERROR_ILLEGAL_CHAR, tk_set_error tk (off + num_chars))
    else if 0xFFFF <? total then (ERROR_TOO_BIG_LITERAL, tk_set_error tk off)
    else (Z.of_nat num_chars, tk_set_value (tk_set_type tk TOKEN_LITERAL) total)
  end.
Proof. reflexivity. Qed.

Lemma number_head_digit : forall ds n rest, number Dec ds n ->
  exists c s' d, ds ++ rest = c :: s' /\ digit_of Dec c d.
Proof. intros ds n rest H. inversion H; subst; cbn; eauto. Qed.

(** numerals: accepted or too big according to the value modulo 2^64 *)
Lemma lex_literal_number : forall off b ds n rest tk, number b ds n -> delimited rest ->
  lex_literal off (prefix b ++ ds ++ rest) tk =
  if 0xFFFF <? u64 n then (ERROR_TOO_BIG_LITERAL, tk_set_error tk off)
  else (Z.of_nat (List.length (prefix b ++ ds)),
        tk_set_value (tk_set_type tk TOKEN_LITERAL) (u64 n)).
Proof.
  intros off b ds n rest tk H D. rewrite lex_literal_unfold.
  destruct (start_of_prefix b (ds ++ rest)) as [E1 E2].
  { intros ->. eapply number_head_digit; eauto. }
  rewrite E1, E2. change 0 with (u64 0) at 1. rewrite (literal_loop_number b ds n H).
  rewrite literal_loop_stop by auto. cbn [negb]. rewrite Z.mul_0_l, Z.add_0_l.
  pose proof (number_nonempty _ _ _ H) as N. destruct ds as [|c ds]; [congruence|].
  rewrite app_length. cbn [List.length].
  destruct (Nat.eqb_spec (List.length (prefix b) + S (List.length ds)) 0); [lia|].
  assert (Nat.eqb (List.length (prefix b) + S (List.length ds)) 1 &&
          ((radix b =? 2) || (radix b =? 16)) = false) as ->.
  { destruct b; cbn; try reflexivity. apply andb_false_iff. right. reflexivity. }
  reflexivity.
Qed.

Lemma lex_literal_bad_digit : forall off b ds n c rest tk, number b ds n ->
  (forall d, ~ digit_of b c d) -> ~ delimiter c ->
  lex_literal off (prefix b ++ ds ++ c :: rest) tk =
  (ERROR_ILLEGAL_CHAR, tk_set_error tk (off + (List.length (prefix b) + List.length ds))).
Proof.
  intros off b ds n c rest tk H D N. rewrite lex_literal_unfold.
  destruct (start_of_prefix b (ds ++ c :: rest)) as [E1 E2].
  { intros ->. eapply number_head_digit; eauto. }
  rewrite E1, E2. change 0 with (u64 0) at 1. rewrite (literal_loop_number b ds n H).
  rewrite literal_loop_bad by auto. reflexivity.
Qed.

Lemma lex_literal_no_digit : forall off b rest tk, b <> Dec ->
  (forall c s d, rest = c :: s -> ~ digit_of b c d) ->
  lex_literal off (prefix b ++ rest) tk = (ERROR_ILLEGAL_CHAR, tk_set_error tk (off + 1)).
Proof.
  intros off b rest tk Hb D. rewrite lex_literal_unfold.
  destruct (start_of_prefix b rest) as [E1 E2]; [congruence|].
  rewrite E1, E2.
  assert (exists st, literal_loop (converter b) (radix b) rest 0 (List.length (prefix b)) =
          (st, 0, 1%nat)) as [st ->].
  { destruct rest as [|c rest]; cbn [literal_loop].
    - exists true. destruct b; try reflexivity. congruence.
    - rewrite (converter_not b c); [|intros d; eapply D; reflexivity]. cbn [negb Z.eqb].
      change (ERROR_ILLEGAL_CHAR =? ERROR_ILLEGAL_CHAR) with true. cbn [negb].
      destruct b; try congruence; destruct (is_end_of_token c); cbn; eauto. }
  destruct st; cbn [negb]; auto. destruct b; try congruence; reflexivity.
Qed.

(** ** Words *)
Lemma scan_text_run : forall cs fuel s n, Forall word_char cs -> (List.length cs <= fuel)%nat ->
  scan_text fuel (cs ++ s) n = scan_text (fuel - List.length cs) s (n + List.length cs).
Proof.
  induction cs as [|c cs IH]; intros fuel s n F L.
  - cbn. rewrite Nat.sub_0_r, Nat.add_0_r. reflexivity.
  - inversion F as [|? ? Hc F']; subst. cbn [List.length] in *. destruct fuel as [|fuel]; [lia|].
    cbn [app scan_text hdc].
    rewrite (not_end_token c (word_char_not_delim c Hc)).
    destruct (Ascii.eqb_spec c ":"%char) as [E|_]; [exfalso; eapply word_char_not_colon; eauto|].
    cbn [orb]. rewrite (valid_yes c Hc). cbn [bind negb].
    rewrite IH by (auto; lia). f_equal; lia.
Qed.

Lemma scan_text_stop : forall fuel s n, (0 < fuel)%nat -> delimited s \/ colon_next s ->
  scan_text fuel s n = Ret (ScanEnd n).
Proof.
  intros [|fuel] s n L H; [lia|]. cbn [scan_text].
  assert (is_end_of_token (hdc s) || Ascii.eqb (hdc s) ":"%char = true) as ->; auto.
  destruct H as [H|[s' ->]]; [|reflexivity].
  destruct s as [|c s]; [reflexivity|]. cbn in *. apply end_token_spec in H. rewrite H. reflexivity.
Qed.

Lemma scan_text_bad : forall fuel c s n, (0 < fuel)%nat ->
  ~ word_char c -> ~ delimiter c -> c <> ":"%char -> code c < 128 ->
  scan_text fuel (c :: s) n = Ret (ScanBad n).
Proof.
  intros [|fuel] c s n L W D C A; [lia|]. cbn [scan_text hdc].
  rewrite (not_end_token c D). destruct (Ascii.eqb_spec c ":"%char); [congruence|].
  cbn [orb]. rewrite (valid_not c A W). reflexivity.
Qed.

Lemma scan_text_undef : forall fuel c s n, (0 < fuel)%nat -> 128 <= code c < 255 ->
  scan_text fuel (c :: s) n = Undef UbCtype.
Proof.
  intros [|fuel] c s n L A; [lia|]. cbn [scan_text hdc].
  rewrite not_end_token; [|intro K; chars].
  destruct (Ascii.eqb_spec c ":"%char) as [->|]; [vm_compute in A; intuition congruence|].
  cbn [orb]. rewrite (valid_undef c A). reflexivity.
Qed.

Lemma scan_dir_run : forall cs fuel s n, Forall letter cs -> (List.length cs <= fuel)%nat ->
  scan_directive fuel (cs ++ s) n = scan_directive (fuel - List.length cs) s (n + List.length cs).
Proof.
  induction cs as [|c cs IH]; intros fuel s n F L.
  - cbn. rewrite Nat.sub_0_r, Nat.add_0_r. reflexivity.
  - inversion F as [|? ? Hc F']; subst. cbn [List.length] in *. destruct fuel as [|fuel]; [lia|].
    cbn [app scan_directive hdc].
    rewrite (not_end_token c (word_char_not_delim c (letter_word_char c Hc))).
    rewrite (isalpha_letter c Hc). cbn [bind negb].
    rewrite IH by (auto; lia). f_equal; lia.
Qed.

Lemma scan_dir_stop : forall fuel s n, (0 < fuel)%nat -> delimited s ->
  scan_directive fuel s n = Ret (ScanEnd n).
Proof.
  intros [|fuel] s n L H; [lia|]. cbn [scan_directive].
  assert (is_end_of_token (hdc s) = true) as ->; auto.
  destruct s as [|c s]; [reflexivity|]. cbn in *. apply end_token_spec, H.
Qed.

Lemma scan_dir_bad : forall fuel c s n, (0 < fuel)%nat ->
  ~ letter c -> ~ delimiter c -> code c < 128 ->
  scan_directive fuel (c :: s) n = Ret (ScanBad n).
Proof.
  intros [|fuel] c s n L W D A; [lia|]. cbn [scan_directive hdc].
  rewrite (not_end_token c D). rewrite (isalpha_not c A W). reflexivity.
Qed.

Lemma scan_dir_undef : forall fuel c s n, (0 < fuel)%nat -> 128 <= code c < 255 ->
  scan_directive fuel (c :: s) n = Undef UbCtype.
Proof.
  intros [|fuel] c s n L A; [lia|]. cbn [scan_directive hdc].
  rewrite not_end_token; [|intro K; chars]. rewrite (isalpha_undef c A). reflexivity.
Qed.

Lemma ctype_ok_ascii : forall c, code c < 128 -> ctype_ok c = true.
Proof.
  intros c H. unfold ctype_ok. rewrite schar_small by auto. pose proof (code_range c).
  destruct (Z.leb_spec 0 (code c)); [reflexivity|lia].
Qed.

Lemma token_strncpy_ok : forall tk w s, Forall (fun c => code c < 128) w ->
  (List.length w < 64)%nat ->
  token_strncpy tk (w ++ s) (List.length w) = Ret (tk_set_str tk (map upper w)).
Proof.
  intros tk w s A L. unfold token_strncpy, MAX_TOKEN_STR_LEN.
  destruct (Nat.ltb_spec (List.length w) 64); [|lia]. cbn [negb].
  destruct (Nat.ltb_spec (List.length (w ++ s)) (List.length w)) as [K|_].
  { rewrite app_length in K. lia. }
  rewrite firstn_app, Nat.sub_diag, firstn_all, firstn_O, app_nil_r.
  assert (forallb ctype_ok w = true) as ->.
  { apply forallb_forall. intros c Hc. apply ctype_ok_ascii. rewrite Forall_forall in A. auto. }
  reflexivity.
Qed.

Lemma ident_word_chars : forall w, ident w -> Forall word_char w.
Proof. intros w (c & cs & -> & L & F). constructor; auto using letter_word_char. Qed.

Lemma word_chars_ascii : forall w, Forall word_char w -> Forall (fun c => code c < 128) w.
Proof. intros w F. eapply Forall_impl; [|exact F]. apply word_char_ascii. Qed.

Lemma ident_nonempty : forall w, ident w -> w <> [].
Proof. intros w (c & cs & -> & _); discriminate. Qed.

(** [lex] on a letter goes to [lex_text] *)
Lemma letter_not_punct : forall c, letter c ->
  Ascii.eqb c "#"%char = false /\ Ascii.eqb c "("%char = false /\ Ascii.eqb c ")"%char = false /\
  Ascii.eqb c ","%char = false /\ Ascii.eqb c "="%char = false /\ Ascii.eqb c "*"%char = false.
Proof.
  intros c H. unfold letter in H. rewrite !eqb_code. char_codes.
  repeat split; apply Z.eqb_neq; lia.
Qed.

Lemma lex_letter : forall off c s tk instr, letter c ->
  lex off (c :: s) tk instr = lex_text off (c :: s) (tk_set_loc tk off) instr.
Proof.
  intros off c s tk instr H. unfold lex. cbn [hdc].
  destruct (letter_not_punct c H) as (-> & -> & -> & -> & -> & ->).
  rewrite (isalpha_letter c H). reflexivity.
Qed.

(** the meaning of an identifier is computed by the string comparisons *)
Definition means (w : text) : tok :=
  let u := map upper w in
  if text_eqb u (T "X") then TX
  else if text_eqb u (T "Y") then TY
  else if text_eqb u (T "A") then TA
  else match mnemonic_name (str_to_mnemonic u) with
       | Some n => TMnemonic n
       | None => TLabel u
       end.

Lemma name_not_reg : forall n, is_name n -> T n <> T "X" /\ T n <> T "Y" /\ T n <> T "A".
Proof.
  intros n H. apply is_name_mnemonic in H. destruct H as [m H].
  destruct m; cbn in H; try discriminate; injection H as <-; vm_compute; repeat split; discriminate.
Qed.

Lemma ident_means_iff : forall w t, ident_means w t <-> t = means w.
Proof.
  intros w t. unfold means.
  destruct (str_to_mnemonic_cases (map upper w)) as [(m & n & Hn & Hu & Hm)|[Hi Ha]].
  - rewrite Hm, Hn.
    assert (is_name n) as Nn by (apply is_name_mnemonic; eauto).
    destruct (name_not_reg n Nn) as (N1 & N2 & N3). rewrite <- Hu in N1, N2, N3.
    pose proof N1 as M1; pose proof N2 as M2; pose proof N3 as M3.
    apply text_eqb_neq in M1, M2, M3. rewrite M1, M2, M3.
    split.
    + intro H. destruct H as [H|H|H|name H H'|H H1 H2 H3]; try congruence.
      * f_equal. apply T_inj. congruence.
      * exfalso. eapply H; eauto.
    + intros ->. constructor; auto.
  - assert (mnemonic_name (str_to_mnemonic (map upper w)) = None) as -> by (rewrite Hi; reflexivity).
    assert (forall name, is_name name -> map upper w <> T name) as Ha'.
    { intros name K. apply is_name_mnemonic in K. destruct K as [m K]. eauto. }
    split.
    + intro H. destruct H as [H|H|H|name H H'|H H1 H2 H3].
      * rewrite H. reflexivity.
      * rewrite H. reflexivity.
      * rewrite H. reflexivity.
      * exfalso. eapply Ha'; eauto.
      * apply text_eqb_neq in H1, H2, H3. rewrite H1, H2, H3. reflexivity.
    + intros ->. destruct (text_eqb (map upper w) (T "X")) eqn:E1.
      { apply text_eqb_eq in E1. constructor; auto. }
      destruct (text_eqb (map upper w) (T "Y")) eqn:E2.
      { apply text_eqb_eq in E2. constructor 2; auto. }
      destruct (text_eqb (map upper w) (T "A")) eqn:E3.
      { apply text_eqb_eq in E3. constructor 3; auto. }
      apply text_eqb_neq in E1, E2, E3. constructor; auto.
Qed.

Lemma lex_text_ident : forall off w s tk instr, ident w -> (List.length w <= 63)%nat ->
  delimited s \/ colon_next s ->
  lex_text off (w ++ s) tk instr =
  Ret (Z.of_nat (List.length w),
       mkTok (type_of (means w)) (map upper w) (tk_value tk) (tk_error_char tk) (tk_loc tk),
       instr_next instr (means w)).
Proof.
  intros off w s tk instr I L D. unfold lex_text, MAX_TOKEN_STR_LEN.
  rewrite scan_text_run by (auto using ident_word_chars; lia).
  rewrite scan_text_stop by (auto; lia). cbn [bind]. rewrite Nat.add_0_l.
  destruct (Nat.eqb_spec (List.length w) 64) as [Nx|_]; [lia|].
  rewrite token_strncpy_ok by (auto using ident_word_chars, word_chars_ascii; lia).
  cbn [bind tk_set_str tk_str]. unfold means.
  destruct (text_eqb (map upper w) (T "X")) eqn:E1; [reflexivity|].
  destruct (text_eqb (map upper w) (T "Y")) eqn:E2; [reflexivity|].
  destruct (text_eqb (map upper w) (T "A")) eqn:E3; [reflexivity|].
  unfold lex_instruction. cbn [tk_str tk_set_str].
  destruct (str_to_mnemonic_cases (map upper w)) as [(m & n & Hn & Hu & Hm)|[Hi Ha]].
  - rewrite Hm, Hn. cbn [type_of instr_next].
    assert (str_to_mnemonic (T n) = m) as -> by (rewrite <- Hu; auto).
    assert ((Z.of_nat (List.length (map upper w)) =? ERROR_INSTRUCTION_NOT_FOUND) = false) as K.
    { apply Z.eqb_neq. unfold ERROR_INSTRUCTION_NOT_FOUND. lia. }
    destruct m; try discriminate Hn; cbv beta iota; rewrite K; reflexivity.
  - rewrite Hi. cbn. reflexivity.
Qed.

Lemma text_of_means : forall w t old, ident_means w t -> tok_text t old = map upper w.
Proof. intros w t old H. destruct H; cbn; auto. Qed.

Lemma value_of_means : forall w t old, ident_means w t -> tok_value t old = old.
Proof. intros w t old H. destruct H; cbn; auto. Qed.

Lemma lex_ident : forall off w s tk instr t, ident w -> (List.length w <= 63)%nat ->
  delimited s \/ colon_next s -> ident_means w t ->
  lex off (w ++ s) tk instr =
  Ret (Z.of_nat (List.length w), tk_next tk (t, off), instr_next instr t).
Proof.
  intros off w s tk instr t I L D H.
  pose proof I as (c & cs & Ew & Hl & _).
  transitivity (lex_text off (w ++ s) (tk_set_loc tk off) instr).
  { rewrite Ew. cbn [app]. apply lex_letter, Hl. }
  rewrite lex_text_ident by auto.
  unfold tk_next. cbn [fst snd]. rewrite (text_of_means w t _ H), (value_of_means w t _ H).
  apply ident_means_iff in H. subst t. reflexivity.
Qed.

(** ** Directives *)
Lemma dot_not_others :
  forall off s tk instr, lex off ("."%char :: s) tk instr =
  ('(n, tk1) <- lex_directive off ("."%char :: s) (tk_set_loc tk off) ;; Ret (n, tk1, instr)).
Proof. intros. reflexivity. Qed.

Lemma upper_dot : upper "."%char = "."%char.
Proof. reflexivity. Qed.

Definition dmeans (w : text) : option directive :=
  let u := map upper w in
  if text_eqb u (T ".DEFINE") then Some DDefine
  else if text_eqb u (T ".EQU") then Some DEqu
  else if text_eqb u (T ".ORG") then Some DOrg
  else if text_eqb u (T ".END") then Some DEnd
  else None.

Lemma directive_means_iff : forall w d, directive_means w d <-> dmeans w = Some d.
Proof.
  intros w d. unfold dmeans. split.
  - intro H. destruct H as [H|H|H|H]; rewrite H; reflexivity.
  - destruct (text_eqb _ (T ".DEFINE")) eqn:E1.
    { apply text_eqb_eq in E1. intro H; injection H as <-. constructor; auto. }
    destruct (text_eqb _ (T ".EQU")) eqn:E2.
    { apply text_eqb_eq in E2. intro H; injection H as <-. constructor; auto. }
    destruct (text_eqb _ (T ".ORG")) eqn:E3.
    { apply text_eqb_eq in E3. intro H; injection H as <-. constructor; auto. }
    destruct (text_eqb _ (T ".END")) eqn:E4.
    { apply text_eqb_eq in E4. intro H; injection H as <-. constructor; auto. }
    discriminate.
Qed.

Lemma lex_directive_word : forall off w s tk, Forall letter w -> (List.length w <= 62)%nat ->
  delimited s ->
  lex_directive off ("."%char :: w ++ s) tk =
  match dmeans ("."%char :: w) with
  | Some d => Ret (Z.of_nat (S (List.length w)),
                   mkTok (type_of (TDirective d)) (map upper ("."%char :: w)) (tk_value tk)
                         (tk_error_char tk) (tk_loc tk))
  | None => Ret (ERROR_ILLEGAL_DIRECTIVE,
                 tk_set_error (tk_set_str tk (map upper ("."%char :: w))) off)
  end.
Proof.
  intros off w s tk F L D. unfold lex_directive, MAX_TOKEN_STR_LEN. cbn [tl].
  rewrite scan_dir_run by (auto; lia). rewrite scan_dir_stop by (auto; lia). cbn [bind].
  destruct (Nat.eqb_spec (1 + List.length w) 64); [lia|].
  change ("."%char :: w ++ s) with (("."%char :: w) ++ s).
  change (1 + List.length w)%nat with (List.length ("."%char :: w)).
  rewrite token_strncpy_ok.
  2:{ constructor; [vm_compute; reflexivity|]. apply word_chars_ascii.
      eapply Forall_impl; [|exact F]. apply letter_word_char. }
  2:{ cbn [List.length]. lia. }
  cbn [bind tk_set_str tk_str]. unfold dmeans.
  destruct (text_eqb _ (T ".DEFINE")) eqn:E1; [reflexivity|].
  destruct (text_eqb _ (T ".EQU")) eqn:E2; [reflexivity|].
  destruct (text_eqb _ (T ".ORG")) eqn:E3; [reflexivity|].
  destruct (text_eqb _ (T ".END")) eqn:E4; reflexivity.
Qed.

Lemma upper_preimage_letter : forall c, letter (upper c) -> letter c.
Proof.
  intros c H. unfold upper in H. destruct ((97 <=? code c) && (code c <=? 122)) eqn:E; auto.
  apply andb_true_iff in E. destruct E as [E1 E2]. apply Z.leb_le in E1, E2. right. lia.
Qed.

Lemma upper_preimage_dot : forall c, upper c = "."%char -> c = "."%char.
Proof.
  intros c H. unfold upper in H. destruct ((97 <=? code c) && (code c <=? 122)) eqn:E; auto.
  apply andb_true_iff in E. destruct E as [E1 E2]. apply Z.leb_le in E1, E2.
  apply code_eq_iff in H. rewrite code_chr in H by lia. revert H. char_codes. lia.
Qed.

Lemma directive_shape : forall w d, directive_means w d ->
  exists cs, w = "."%char :: cs /\ Forall letter cs /\ (List.length cs <= 62)%nat /\
             tok_text (TDirective d) [] = map upper w.
Proof.
  assert (K : forall w d t, map upper w = "."%char :: t -> Forall letter t ->
     (List.length t <= 62)%nat -> tok_text (TDirective d) [] = "."%char :: t ->
     exists cs, w = "."%char :: cs /\ Forall letter cs /\ (List.length cs <= 62)%nat /\
             tok_text (TDirective d) [] = map upper w).
  { intros w d t E F L Et. destruct w as [|c cs]; [discriminate|]. cbn in E. injection E as E1 E2.
    exists cs. apply upper_preimage_dot in E1. subst c. repeat split; auto.
    - subst t. clear -F. induction cs; constructor; inversion F; subst; auto using upper_preimage_letter.
    - subst t. rewrite map_length in L. exact L.
    - rewrite Et. cbn. rewrite E2. reflexivity. }
  intros w d H.
  destruct H; (eapply K; [exact H| | |reflexivity]);
    first [repeat constructor; cbv; intuition congruence | cbn; lia].
Qed.

Lemma lex_directive_ok : forall off w s tk instr d, directive_means w d -> delimited s ->
  lex off (w ++ s) tk instr =
  Ret (Z.of_nat (List.length w), tk_next tk (TDirective d, off), instr).
Proof.
  intros off w s tk instr d H D.
  destruct (directive_shape w d H) as (cs & -> & F & L & E).
  cbn [app]. rewrite dot_not_others. rewrite lex_directive_word by auto.
  apply directive_means_iff in H. rewrite H. cbn [bind]. unfold tk_next. cbn [fst snd].
  rewrite <- E. destruct d; reflexivity.
Qed.

(** ** Literals through [lex] *)
Lemma lex_number_start : forall off b s tk instr,
  (b = Dec -> exists c s' d, s = c :: s' /\ digit_of Dec c d) ->
  lex off (prefix b ++ s) tk instr =
  (let '(n, tk1) := lex_literal off (prefix b ++ s) (tk_set_loc tk off) in Ret (n, tk1, instr)).
Proof.
  intros off b s tk instr H. destruct b; try reflexivity.
  destruct (H eq_refl) as (c & s' & d & -> & D). inversion D as [c' Hc E1 E2| | | |]; subst.
  unfold lex, prefix. cbn [app hdc].
  rewrite isalpha_not by (unfold letter; lia). cbn [bind].
  rewrite !eqb_code. char_codes. rewrite schar_small by lia.
  repeat match goal with |- context [code c =? ?k] =>
    destruct (Z.eqb_spec (code c) k); [lia|] end.
  cbn [orb]. destruct (in_range 48 (code c) 57) eqn:E; auto.
  apply in_range_false in E. lia.
Qed.

Lemma lex_numeral : forall off w n v s tk instr, numeral w n -> literal_wrapping n v ->
  delimited s ->
  lex off (w ++ s) tk instr =
  Ret (Z.of_nat (List.length w), tk_next tk (TNumber v, off), instr).
Proof.
  intros off w n v s tk instr (b & ds & -> & H) [-> V] D.
  rewrite <- app_assoc. rewrite lex_number_start.
  2:{ intros ->. eapply number_head_digit; eauto. }
  rewrite (lex_literal_number off b ds n) by auto.
  change (u64 n) with (n mod 2 ^ 64). destruct (Z.ltb_spec 65535 (n mod 2 ^ 64)); [lia|].
  reflexivity.
Qed.

(** ** The token lemma: a word or punctuation of the specification *)
Lemma lex_word : forall off w t s tk instr, word literal_wrapping w t ->
  delimited s \/ (ident w /\ colon_next s) ->
  lex off (w ++ s) tk instr =
  Ret (Z.of_nat (List.length w), tk_next tk (t, off), instr_next instr t).
Proof.
  intros off w t s tk instr H D. destruct H as [w t I L M|w n v N V|w d M].
  - apply lex_ident; auto. tauto.
  - apply lex_numeral with (n := n); auto. destruct D as [D|[(c & cs & -> & Hl & _) _]]; auto.
    destruct N as (b & ds & E & Hn). destruct b; cbn in E.
    + injection E as -> _. exfalso. clear -Hl. unfold letter in Hl. revert Hl. char_codes. lia.
    + injection E as -> _. exfalso. clear -Hl. unfold letter in Hl. revert Hl. char_codes. lia.
    + subst ds. inversion Hn; subst;
      match goal with H : digit_of Dec _ _ |- _ => inversion H; subst end;
      exfalso; unfold letter in Hl; lia.
  - destruct D as [D|[(c & cs & -> & Hl & _) _]].
    + rewrite (lex_directive_ok off w s tk instr d M D). reflexivity.
    + destruct (directive_shape _ _ M) as (cs' & E & _). injection E as -> _.
      exfalso. clear -Hl. unfold letter in Hl. revert Hl. char_codes. lia.
Qed.

Lemma lex_punct : forall off c t s tk instr, punct c t ->
  lex off (c :: s) tk instr = Ret (1, tk_next tk (t, off), instr).
Proof.
  intros off c t s tk instr H.
  destruct H as [H|[H|[H|[H|[H|H]]]]]; injection H as -> ->; reflexivity.
Qed.

(** ** Errors *)
Lemma lex_bad : forall off s tk instr e k, bad_token literal_wrapping s e k ->
  exists tk', lex off s tk instr = Ret (error_code_of e, tk', instr) /\
              tk_error_char tk' = Some (off + k)%nat.
Proof.
  intros off s tk instr e k H.
  destruct H as [c s Hb He Hs Ha|b s Hb Hd|b ds n c s Hn Hd Hdl|w n s Hn Hd Hv|w c s Hi Hl Hw Hd Hc Ha
                |w s Hi Hl|w c s Hf Hl Hw Hd Ha|w s Hf Hl Hd Hm|w s Hf Hl].
  - exists (tk_set_error (tk_set_loc tk off) off). split; [|cbn; f_equal; lia].
    unfold lex. cbn [hdc].
    assert (P : forall p t, punct p t -> Ascii.eqb c p = false).
    { intros p t K. destruct (Ascii.eqb_spec c p) as [->|]; auto. exfalso. apply Hs.
      repeat right. eauto. }
    rewrite (P "#"%char THash) by (unfold punct; tauto).
    rewrite (P "("%char TOpen) by (unfold punct; tauto).
    rewrite (P ")"%char TClose) by (unfold punct; tauto).
    rewrite (P ","%char TComma) by (unfold punct; tauto).
    rewrite (P "="%char TEqual) by (unfold punct; tauto).
    rewrite (P "*"%char TStar) by (unfold punct; tauto).
    rewrite isalpha_not by (auto; intro K; apply Hs; left; auto). cbn [bind].
    destruct (Ascii.eqb_spec c "$"%char) as [->|_]; [exfalso; apply Hs; unfold starter; tauto|].
    destruct (Ascii.eqb_spec c "%"%char) as [->|_]; [exfalso; apply Hs; unfold starter; tauto|].
    destruct (in_range 48 (schar c) 57) eqn:E.
    { rewrite schar_small in E by auto. apply in_range_spec in E. exfalso. apply Hs.
      right. left. exact E. }
    destruct (Ascii.eqb_spec c "."%char) as [->|_]; [exfalso; apply Hs; unfold starter; tauto|].
    cbn [orb]. reflexivity.
  - eexists. rewrite lex_number_start by congruence.
    rewrite lex_literal_no_digit by (auto; intros; eapply Hd; eauto).
    split; reflexivity.
  - eexists. rewrite lex_number_start.
    2:{ intros ->. eapply number_head_digit; eauto. }
    rewrite (lex_literal_bad_digit off b ds n) by auto. split; reflexivity.
  - destruct Hn as (b & ds & -> & Hn). eexists. rewrite <- app_assoc. rewrite lex_number_start.
    2:{ intros ->. eapply number_head_digit; eauto. }
    rewrite (lex_literal_number off b ds n) by auto.
    destruct (Z.ltb_spec 65535 (u64 n)) as [K|K].
    + split; [reflexivity|]. cbn. f_equal. lia.
    + exfalso. apply (Hv (u64 n)). split; [reflexivity|exact K].
  - exists (tk_set_error (tk_set_loc tk off) (off + List.length w)). split; [|reflexivity].
    pose proof Hi as (c0 & cs & E & Hl0 & _).
    transitivity (lex_text off (w ++ c :: s) (tk_set_loc tk off) instr).
    { rewrite E. cbn [app]. apply lex_letter, Hl0. }
    unfold lex_text, MAX_TOKEN_STR_LEN.
    rewrite scan_text_run by (auto using ident_word_chars; lia).
    rewrite scan_text_bad by (auto; lia). reflexivity.
  - exists (tk_set_error (tk_set_loc tk off) off). split; [|cbn; f_equal; lia].
    pose proof Hi as (c0 & cs & E & Hl0 & _).
    transitivity (lex_text off (w ++ s) (tk_set_loc tk off) instr).
    { rewrite E. cbn [app]. apply lex_letter, Hl0. }
    unfold lex_text, MAX_TOKEN_STR_LEN.
    rewrite scan_text_run by (auto using ident_word_chars; lia).
    rewrite Hl. cbn [Nat.sub scan_text bind]. reflexivity.
  - eexists. rewrite dot_not_others. unfold lex_directive, MAX_TOKEN_STR_LEN. cbn [tl].
    rewrite scan_dir_run by (auto; lia). rewrite scan_dir_bad by (auto; lia). cbn [bind].
    split; reflexivity.
  - eexists. rewrite dot_not_others. rewrite lex_directive_word by auto.
    destruct (dmeans ("."%char :: w)) as [d|] eqn:E.
    { apply directive_means_iff in E. exfalso. eapply Hm; eauto. }
    cbn [bind]. split; [reflexivity|]. cbn. f_equal. lia.
  - eexists. rewrite dot_not_others. unfold lex_directive, MAX_TOKEN_STR_LEN. cbn [tl].
    rewrite scan_dir_run by (auto; lia). rewrite Hl. cbn [Nat.sub scan_directive bind].
    split; [reflexivity|]. cbn. f_equal. lia.
Qed.

(** ** Undefined behaviour: a byte from $80 to $FE where a token starts or inside of
    a word or directive *)
Definition high (c : ascii) : Prop := 128 <= code c < 255.

Inductive high_token : text -> Prop :=
| high_start c s : high c -> high_token (c :: s)
| high_ident w c s : ident w -> (List.length w <= 63)%nat -> high c -> high_token (w ++ c :: s)
| high_directive w c s : Forall letter w -> (List.length w <= 62)%nat -> high c ->
    high_token ("."%char :: w ++ c :: s).

Lemma lex_high : forall off s tk instr, high_token s -> lex off s tk instr = Undef UbCtype.
Proof.
  intros off s tk instr H. destruct H as [c s H|w c s Hi Hl H|w c s Hf Hl H].
  - unfold lex. cbn [hdc]. rewrite !eqb_code. char_codes. unfold high in H.
    repeat match goal with |- context [code c =? ?k] =>
      destruct (Z.eqb_spec (code c) k); [lia|] end.
    rewrite isalpha_undef by exact H. reflexivity.
  - pose proof Hi as (c0 & cs & E & Hl0 & _).
    transitivity (lex_text off (w ++ c :: s) (tk_set_loc tk off) instr).
    { rewrite E. cbn [app]. apply lex_letter, Hl0. }
    unfold lex_text, MAX_TOKEN_STR_LEN.
    rewrite scan_text_run by (auto using ident_word_chars; lia).
    rewrite scan_text_undef by (auto; lia). reflexivity.
  - rewrite dot_not_others. unfold lex_directive, MAX_TOKEN_STR_LEN. cbn [tl].
    rewrite scan_dir_run by (auto; lia). rewrite scan_dir_undef by (auto; lia). reflexivity.
Qed.

(** ** Every text that is not blank or at its end starts with a punctuation, a word
    (followed by a delimiter or a colon), an error, or a high byte *)
Lemma run_split : forall (P : ascii -> Prop), (forall c, P c \/ ~ P c) -> forall s,
  exists w r, s = w ++ r /\ Forall P w /\ (forall c r', r = c :: r' -> ~ P c).
Proof.
  intros P D. induction s as [|c s (w & r & -> & F & N)].
  - exists [], []. repeat split; auto. intros; discriminate.
  - destruct (D c).
    + exists (c :: w), r. repeat split; auto.
    + exists [], (c :: w ++ r). repeat split; auto. intros c' r' E. injection E as <- <-. auto.
Qed.

Lemma letter_dec : forall c, letter c \/ ~ letter c.
Proof. intro c. unfold letter. lia. Qed.
Lemma word_char_dec : forall c, word_char c \/ ~ word_char c.
Proof.
  intro c. unfold word_char, digit. destruct (letter_dec c); [tauto|].
  destruct (Ascii.ascii_dec c "_"%char); [tauto|].
  assert (48 <= code c <= 57 \/ ~ 48 <= code c <= 57) by lia. tauto.
Qed.
Lemma delimiter_dec : forall c, delimiter c \/ ~ delimiter c.
Proof.
  intro c. rewrite <- end_token_spec. destruct (is_end_of_token c); [tauto|right; congruence].
Qed.

Lemma firstn_forall : forall A (P : A -> Prop) n l, Forall P l -> Forall P (firstn n l).
Proof. induction n; intros [|x l] H; cbn; auto. inversion H; constructor; auto. Qed.

(** the first [k] characters of a longer run *)
Lemma run_prefix : forall (w : text) k, (k <= List.length w)%nat -> w = firstn k w ++ skipn k w /\
  List.length (firstn k w) = k.
Proof. intros. rewrite firstn_skipn, firstn_length. split; auto. lia. Qed.

Inductive first_token (s : text) : Prop :=
| ft_punct c t r : s = c :: r -> punct c t -> first_token s
| ft_word w t r : s = w ++ r -> w <> [] -> word literal_wrapping w t ->
    delimited r \/ (ident w /\ colon_next r) -> first_token s
| ft_bad e k : bad_token literal_wrapping s e k -> first_token s
| ft_high : high_token s -> first_token s.

Lemma token_cases : forall c s, ~ blank c -> ~ line_end c -> first_token (c :: s).
Proof.
  intros c s Hb He.
  assert (Hrange : code c < 128 \/ high c).
  { pose proof (code_range c). unfold high. assert (code c <> 255); [|lia].
    intro E. apply He. repeat right. apply code_eq_iff. rewrite E. reflexivity. }
  destruct Hrange as [Ha|Hh]; [|apply ft_high; constructor; auto].
  assert (hi_dec : forall x, ~ delimiter x -> code x < 128 \/ high x).
  { intros x Hx. pose proof (code_range x). unfold high. assert (code x <> 255); [|lia].
    intro E. apply Hx. right. left. repeat right. apply code_eq_iff. rewrite E. reflexivity. }
  destruct (letter_dec c) as [Hl|Hl].
  { (* a word *)
    destruct (run_split word_char word_char_dec s) as (w & r & -> & F & N).
    destruct (le_lt_dec 63 (List.length w)) as [L|L].
    - destruct (run_prefix w 63 L) as [E1 E2].
      assert (c :: w ++ r = (c :: firstn 63 w) ++ (skipn 63 w ++ r)) as ->.
      { cbn [app]. rewrite app_assoc. rewrite <- E1. reflexivity. }
      eapply ft_bad. apply bad_ident_length.
      + exists c, (firstn 63 w). repeat split; auto. apply firstn_forall, F.
      + cbn [List.length]. rewrite E2. reflexivity.
    - assert (I : ident (c :: w)) by (exists c, w; auto).
      assert (L' : (List.length (c :: w) <= 63)%nat) by (cbn [List.length]; lia).
      assert (W : word literal_wrapping (c :: w) (means (c :: w))).
      { constructor; auto. apply ident_means_iff. reflexivity. }
      change (c :: w ++ r) with ((c :: w) ++ r).
      destruct r as [|x r].
      { eapply ft_word; [reflexivity|discriminate|exact W|left; exact Logic.I]. }
      specialize (N x r eq_refl).
      destruct (delimiter_dec x) as [Dx|Dx].
      { eapply ft_word; [reflexivity|discriminate|exact W|left; exact Dx]. }
      destruct (Ascii.ascii_dec x ":"%char) as [->|Cx].
      { eapply ft_word; [reflexivity|discriminate|exact W|right; split; auto; eexists; reflexivity]. }
      destruct (hi_dec x Dx).
      + eapply ft_bad. apply bad_ident_char; auto.
      + apply ft_high. apply high_ident; auto. }
  (* numerals *)
  assert (NUM : forall b, (b = Dec -> exists d, digit_of Dec c d) ->
                forall t, c :: s = prefix b ++ t -> first_token (c :: s)).
  { intros b Hdec t Et.
    destruct (run_split (fun x => exists d, digit_of b x d)
               (fun x => match digit_dec_ex b x with
                         | or_introl h => or_introl h
                         | or_intror h => or_intror (fun '(ex_intro _ d k) => h d k) end) t)
      as (ds & r & Er & F & N).
    rewrite Et, Er.
    destruct ds as [|d0 ds].
    - destruct b.
      + eapply ft_bad. apply bad_no_digit; [discriminate|].
        intros x s' d E D. eapply (N x s'); eauto.
      + eapply ft_bad. apply bad_no_digit; [discriminate|].
        intros x s' d E D. eapply (N x s'); eauto.
      + exfalso. cbn in Et, Er. subst. destruct (Hdec eq_refl) as [d D].
        eapply (N c s); eauto.
    - destruct (number_total b (d0 :: ds)) as [n Hn]; [discriminate|exact F|].
      assert (Hnum : numeral (prefix b ++ d0 :: ds) n) by (exists b, (d0 :: ds); auto).
      assert (Hne : prefix b ++ d0 :: ds <> []) by (intro K; apply app_eq_nil in K; destruct K; discriminate).
      assert (Hval : delimited r -> first_token (prefix b ++ (d0 :: ds) ++ r)).
      { intro Dr. rewrite app_assoc. destruct (Z_le_gt_dec (n mod 2 ^ 64) 0xFFFF) as [V|V].
        - eapply ft_word; [reflexivity|exact Hne|eapply word_numeral; [exact Hnum|split; [reflexivity|exact V]]|auto].
        - eapply ft_bad. eapply bad_value; eauto. intros v [-> K]. lia. }
      destruct r as [|x r].
      + apply Hval. exact Logic.I.
      + destruct (delimiter_dec x) as [Dx|Dx]; [apply Hval; exact Dx|].
        eapply ft_bad. eapply bad_digit; eauto. intros d D. eapply (N x r); eauto. }
  destruct (Ascii.ascii_dec c "$"%char) as [->|N1].
  { apply (NUM Hex) with (t := s); [discriminate|reflexivity]. }
  destruct (Ascii.ascii_dec c "%"%char) as [->|N2].
  { apply (NUM Bin) with (t := s); [discriminate|reflexivity]. }
  assert (digit c \/ ~ digit c) as [Hd|Hd] by (unfold digit; lia).
  { apply (NUM Dec) with (t := c :: s); [|reflexivity].
    intros _. eexists. constructor. exact Hd. }
  destruct (Ascii.ascii_dec c "."%char) as [->|N3].
  { (* directive *)
    destruct (run_split letter letter_dec s) as (w & r & -> & F & N).
    destruct (le_lt_dec 63 (List.length w)) as [L|L].
    - destruct (run_prefix w 63 L) as [E1 E2].
      assert ("."%char :: w ++ r = "."%char :: firstn 63 w ++ (skipn 63 w ++ r)) as ->.
      { rewrite app_assoc. rewrite <- E1. reflexivity. }
      eapply ft_bad. eapply bad_directive_length; [apply firstn_forall, F|exact E2].
    - assert (Hdel : delimited r -> first_token ("."%char :: w ++ r)).
      { intro Dr. destruct (dmeans ("."%char :: w)) as [d|] eqn:E.
        - apply directive_means_iff in E.
          apply (ft_word _ ("."%char :: w) (TDirective d) r); auto; [discriminate|].
          apply word_directive; auto.
        - eapply ft_bad. apply bad_directive; auto; [lia|].
          intros d K. apply directive_means_iff in K. congruence. }
      destruct r as [|x r]; [apply Hdel; exact I|].
      destruct (delimiter_dec x) as [Dx|Dx]; [apply Hdel; exact Dx|].
      specialize (N x r eq_refl).
      destruct (hi_dec x Dx).
      + eapply ft_bad. apply bad_directive_char; auto. lia.
      + apply ft_high. apply high_directive; auto. lia. }
  (* punctuation or illegal *)
  destruct (Ascii.ascii_dec c "#"%char) as [->|M1]; [apply (ft_punct _ "#"%char THash s); unfold punct; auto|].
  destruct (Ascii.ascii_dec c "("%char) as [->|M2]; [apply (ft_punct _ "("%char TOpen s); unfold punct; auto|].
  destruct (Ascii.ascii_dec c ")"%char) as [->|M3]; [apply (ft_punct _ ")"%char TClose s); unfold punct; auto 10|].
  destruct (Ascii.ascii_dec c ","%char) as [->|M4]; [apply (ft_punct _ ","%char TComma s); unfold punct; auto 10|].
  destruct (Ascii.ascii_dec c "="%char) as [->|M5]; [apply (ft_punct _ "="%char TEqual s); unfold punct; auto 10|].
  destruct (Ascii.ascii_dec c "*"%char) as [->|M6]; [apply (ft_punct _ "*"%char TStar s); unfold punct; auto 10|].
  eapply ft_bad. apply bad_start; auto.
  intros [K|[K|[K|[K|[K|[t K]]]]]]; try tauto.
  destruct K as [K|[K|[K|[K|[K|K]]]]]; injection K; congruence.
Qed.
