(** Proof_Raw2.v -- lex_line and the whole run on arrays of bytes. *)
From Verif Require Import Base Model_Opcode Model_Error Model_Lexer Model_SymbolTable Model_Parser Model_ForwardRef
  Model_Generator Model_Main Model_Raw Proof_Raw.

Definition LR (l m : Lexer) : Prop := Forall tok_ok (lx_seq l) /\ line_rel (lx_line l) (lx_line m) /\ see_lexer l = m.

Lemma LR_seq : forall l m, LR l m -> Forall2 TR (lx_seq l) (lx_seq m).
Proof.
  intros l m (F & _ & <-). cbn [see_lexer lx_seq]. induction F as [|t ts Ht F IH]; cbn [map]; constructor; [|exact IH].
  split; [exact Ht|reflexivity].
Qed.
Lemma seq_LR : forall l m, Forall2 TR (lx_seq l) (lx_seq m) -> lx_curr l = lx_curr m -> lx_error_tk l = lx_error_tk m ->
  line_rel (lx_line l) (lx_line m) -> lx_line_num l = lx_line_num m -> lx_file l = lx_file m -> LR l m.
Proof.
  intros l m F C E L N FI. destruct l as [ls lc le ll ln lf], m as [ms mc me ml mn mf]. cbn [lx_seq lx_curr lx_error_tk lx_line lx_line_num lx_file] in *.
  subst. split; [|split; [exact L|]].
  - cbn [lx_seq]. induction F as [|t u ts us (T & _) F IH]; constructor; [exact T|exact IH].
  - unfold see_lexer. cbn [lx_seq lx_curr lx_error_tk lx_line lx_line_num lx_file]. f_equal.
    + induction F as [|t u ts us (_ & T) F IH]; cbn [map]; [reflexivity|]. rewrite T, IH. reflexivity.
    + destruct ll as [a|], ml as [s|]; cbn [line_rel] in L; try contradiction; [|reflexivity].
      cbn [option_map]. rewrite (str_at_cstring _ _ L). reflexivity.
Qed.
Lemma LR_curr : forall l m, LR l m -> lx_curr l = lx_curr m.
Proof. intros l m (_ & _ & <-). reflexivity. Qed.
Lemma LR_file : forall l m, LR l m -> lx_file l = lx_file m.
Proof. intros l m (_ & _ & <-). reflexivity. Qed.
Lemma LR_num : forall l m, LR l m -> lx_line_num l = lx_line_num m.
Proof. intros l m (_ & _ & <-). reflexivity. Qed.
Lemma LR_error : forall l m, LR l m -> lx_error_tk l = lx_error_tk m.
Proof. intros l m (_ & _ & <-). reflexivity. Qed.
Lemma LR_line : forall l m, LR l m -> line_rel (lx_line l) (lx_line m).
Proof. intros l m (_ & L & _). exact L. Qed.

Lemma Forall2_get : forall (A B : Type) (P : A -> B -> Prop) l m i, Forall2 P l m -> refines P (get l i) (get m i).
Proof.
  intros A B P l m i F z E. unfold get in *. destruct (i <? 0); [discriminate E|].
  revert E. generalize (Z.to_nat i). clear i. induction F as [|x y l m H F IH]; intros [|n] E; cbn [nth_error] in *; try discriminate E.
  - injection E as <-. exists x. split; [reflexivity|exact H].
  - exact (IH n E).
Qed.

Lemma Forall2_len : forall (A B : Type) (P : A -> B -> Prop) l m, Forall2 P l m -> List.length l = List.length m.
Proof. intros A B P l m F. induction F as [|x y l m H F IH]; cbn [List.length]; [reflexivity|]. rewrite IH. reflexivity. Qed.

Lemma Forall2_upd : forall (A B : Type) (P : A -> B -> Prop) l m i x y, Forall2 P l m -> P x y -> Forall2 P (upd l i x) (upd m i y).
Proof.
  intros A B P l m i x y F. revert i. induction F as [|a b l m H F IH]; intros [|i] K; cbn [upd]; constructor; auto.
Qed.

Lemma Forall2_put : forall (A B : Type) (P : A -> B -> Prop) l m i x y, Forall2 P l m -> P x y ->
  refines (Forall2 P) (put l i x) (put m i y).
Proof.
  intros A B P l m i x y F K z E. unfold put in *. rewrite (Forall2_len _ _ _ _ _ F).
  destruct (in_range 0 i (Z.of_nat (List.length m) - 1)); [|discriminate E]. injection E as <-.
  eexists. split; [reflexivity|]. apply Forall2_upd; assumption.
Qed.

(** ** add_token *)
Definition AR (x y : Z * Lexer * text) : Prop :=
  fst (fst x) = fst (fst y) /\ LR (snd (fst x)) (snd (fst y)) /\ snd x = snd y /\ lx_line (snd (fst x)) = lx_line (snd (fst x)).

Lemma add_token_ok : forall l m t u, LR l m -> TR t u -> refines AR (add_token_raw l t) (add_token m u).
Proof.
  intros l m t u HL HT. unfold add_token_raw, add_token. rewrite (LR_curr _ _ HL).
  destruct (lx_curr m =? MAX_TOKENS).
  { apply ref_ret. repeat split; [apply HL..]. }
  eapply ref_bind; [apply Forall2_get; apply LR_seq; exact HL|]. intros x y HX.
  rewrite (TR_type _ _ HX). destruct (ty_eqb (tk_type y) TOKEN_NULL).
  - rewrite (TR_type _ _ HT).
    eapply ref_bind; [apply token_strcpy_ok; [apply TR_set_type; exact HX|apply TR_str; exact HT]|]. intros x1 y1 HX1.
    eapply ref_bind.
    + apply (Forall2_put _ _ TR); [apply LR_seq; exact HL|].
      rewrite (TR_value _ _ HT), (TR_loc _ _ HT). destruct HX1 as (K & <-). split; [exact K|reflexivity].
    + intros sx sy HS. apply ref_ret. split; [reflexivity|]. split; [|split; reflexivity].
      cbn [fst snd]. apply seq_LR; cbn [lx_seq lx_curr lx_error_tk lx_line lx_line_num lx_file]; try reflexivity;
        [exact HS|apply LR_error; exact HL|apply LR_line; exact HL|apply LR_num; exact HL|apply LR_file; exact HL].
  - rewrite (LR_file _ _ HL), (LR_num _ _ HL).
    eapply ref_bind; [apply print_error_ok; apply LR_line; exact HL|]. intros o1 o2 ->.
    apply ref_ret. repeat split; apply HL.
Qed.

(** ** lex_literal *)
Lemma conv_nul : forall c conv, In conv [hex_digit_to_int; bin_digit_to_int; dec_digit_to_int] -> c = ch_nul ->
  conv c = ERROR_ILLEGAL_CHAR.
Proof. intros c conv [<- | [<- | [<- | []]]] ->; reflexivity. Qed.

Lemma literal_loop_ok : forall conv base s fuel a off total n, str_at a off s -> (List.length s < fuel)%nat ->
  literal_loop_raw fuel conv base a off total n = Ret (literal_loop conv base s total n).
Proof.
  intros conv base. induction s as [|c s IH]; intros fuel a off total n H F; (destruct fuel as [|k]; [lia|]);
    cbn [literal_loop_raw literal_loop]; rewrite (str_at_hdc _ _ _ H); cbn [bind hdc].
  - rewrite Ascii.eqb_refl. reflexivity.
  - destruct (Ascii.eqb_spec c ch_nul) as [D|_]; [destruct (str_at_nonul _ _ _ c H); [left; reflexivity|exact D]|].
    destruct (negb (conv c =? ERROR_ILLEGAL_CHAR)).
    + apply IH; [exact (str_at_tl _ _ _ _ H)|cbn [List.length] in F; lia].
    + destruct (negb (is_end_of_token c)); reflexivity.
Qed.

Definition P2 (x y : Z * Token) : Prop := fst x = fst y /\ TR (snd x) (snd y).

Lemma lex_literal_ok : forall a off s t u, str_at a off s -> TR t u ->
  exists x, lex_literal_raw a off t = Ret x /\ P2 x (lex_literal off s u).
Proof.
  intros a off s t u H K. unfold lex_literal_raw, lex_literal.
  rewrite (str_at_hdc _ _ _ H). cbn [bind].
  assert (ER : forall o, P2 (ERROR_ILLEGAL_CHAR, tk_set_error t o) (ERROR_ILLEGAL_CHAR, tk_set_error u o)).
  { intro o. split; [reflexivity|]. cbn [snd]. apply TR_set_error. exact K. }
  assert (GO : forall base conv prefix, (prefix <= List.length s)%nat ->
    exists x,
    ('(stopped, total, num_chars) <- literal_loop_raw (S (List.length a)) conv base a (off + prefix) 0 prefix;;
    (if negb stopped then Ret (ERROR_ILLEGAL_CHAR, tk_set_error t (off + num_chars))
     else if Nat.eqb num_chars 0 then Ret (ERROR_ILLEGAL_CHAR, tk_set_error t (off + num_chars))
     else if Nat.eqb num_chars 1 && ((base =? 2) || (base =? 16)) then Ret (ERROR_ILLEGAL_CHAR, tk_set_error t (off + num_chars))
     else if 65535 <? total then Ret (ERROR_TOO_BIG_LITERAL, tk_set_error t off)
     else Ret (Z.of_nat num_chars, tk_set_value (tk_set_type t TOKEN_LITERAL) total))) = Ret x /\
    P2 x (let '(stopped, total, num_chars) := literal_loop conv base (skipn prefix s) 0 prefix in
     if negb stopped then (ERROR_ILLEGAL_CHAR, tk_set_error u (off + num_chars))
     else if Nat.eqb num_chars 0 then (ERROR_ILLEGAL_CHAR, tk_set_error u (off + num_chars))
     else if Nat.eqb num_chars 1 && ((base =? 2) || (base =? 16)) then (ERROR_ILLEGAL_CHAR, tk_set_error u (off + num_chars))
     else if 65535 <? total then (ERROR_TOO_BIG_LITERAL, tk_set_error u off)
     else (Z.of_nat num_chars, tk_set_value (tk_set_type u TOKEN_LITERAL) total))).
  { intros base conv prefix L. rewrite (literal_loop_ok conv base (skipn prefix s)); [|apply str_at_skip; [exact H|exact L]|].
    2:{ rewrite skipn_length. pose proof (str_at_length _ _ _ H). lia. }
    cbn [bind]. destruct (literal_loop conv base (skipn prefix s) 0 prefix) as [[stopped total] n].
    destruct (negb stopped); [eexists; split; [reflexivity|apply ER]|].
    destruct (Nat.eqb n 0); [eexists; split; [reflexivity|apply ER]|].
    destruct (Nat.eqb n 1 && ((base =? 2) || (base =? 16))); [eexists; split; [reflexivity|apply ER]|].
    destruct (65535 <? total); (eexists; split; [reflexivity|]).
    - split; [reflexivity|]. cbn [snd]. apply TR_set_error. exact K.
    - split; [reflexivity|]. cbn [snd]. apply TR_set_value, TR_set_type. exact K. }
  destruct s as [|c s].
  - cbn [hdc]. replace (Ascii.eqb ch_nul "$") with false by reflexivity. replace (Ascii.eqb ch_nul "%") with false by reflexivity.
    replace (in_range 48 (schar ch_nul) 57) with false by reflexivity. eexists. split; [reflexivity|apply ER].
  - cbn [hdc]. destruct (Ascii.eqb c "$"); [apply GO; cbn [List.length]; lia|].
    destruct (Ascii.eqb c "%"); [apply GO; cbn [List.length]; lia|].
    destruct (in_range 48 (schar c) 57); [apply GO; lia|]. eexists. split; [reflexivity|apply ER].
Qed.

(** ** lex_instruction *)
Lemma mnemonics_ok : forall a s, str_at a 0 s -> forall names, Forall (fun p => ~ In ch_nul (T (fst p))) names ->
  str_to_mnemonic_raw names a = Ret (fold_right (fun p r => if text_eqb (T (fst p)) s then snd p else r) ILLEGAL_MNEMONIC names).
Proof.
  intros a s H names F. induction F as [|[n m] names N F IH]; cbn [str_to_mnemonic_raw fold_right fst snd] in *; [reflexivity|].
  rewrite (strcmp_at _ _ _ _ (lit_at n N) H). cbn [bind]. destruct (text_eqb (T n) s); [reflexivity|exact IH].
Qed.

Lemma mnemonics_nonul : Forall (fun p => ~ In ch_nul (T (fst p))) mnemonic_strings.
Proof.
  apply Forall_forall. intros p I. assert (B : forallb (fun p => negb (existsb (Ascii.eqb ch_nul) (T (fst p)))) mnemonic_strings = true) by reflexivity.
  rewrite forallb_forall in B. specialize (B p I). intro N. apply negb_true_iff in B.
  assert (X : existsb (Ascii.eqb ch_nul) (T (fst p)) = true) by (apply existsb_exists; exists ch_nul; split; [exact N|apply Ascii.eqb_refl]).
  rewrite X in B. discriminate B.
Qed.

Lemma str_to_mnemonic_ok : forall a s, str_at a 0 s -> str_to_mnemonic_raw mnemonic_strings a = Ret (str_to_mnemonic s).
Proof. intros a s H. rewrite (mnemonics_ok a s H _ mnemonics_nonul). reflexivity. Qed.

Definition P3 (x y : Z * Token * Instruction) : Prop := fst (fst x) = fst (fst y) /\ TR (snd (fst x)) (snd (fst y)) /\ snd x = snd y.

Lemma lex_instruction_ok : forall t u i, TR t u -> exists x, lex_instruction_raw t i = Ret x /\ P3 x (lex_instruction u i).
Proof.
  intros t u i H. unfold lex_instruction_raw, lex_instruction.
  rewrite (str_to_mnemonic_ok _ _ (TR_str _ _ H)). cbn [bind].
  destruct (str_to_mnemonic (tk_str u)); rewrite ?(strlen_at _ _ _ (TR_str _ _ H)); cbn [bind]; (eexists; split; [reflexivity|]);
    (split; [reflexivity|]; split; [|reflexivity]; cbn [fst snd]; try exact H; apply TR_set_type; exact H).
Qed.

(** ** lex_directive, lex_text *)
Lemma scan_directive_ok : forall fuel a off s n, str_at a (off + n) s ->
  refines eq (scan_directive_raw fuel a off n) (scan_directive fuel s n).
Proof.
  induction fuel as [|k IH]; intros a off s n H; cbn [scan_directive_raw scan_directive]; [apply ref_same|].
  rewrite (str_at_hdc _ _ _ H). cbn [bind]. destruct (is_end_of_token (hdc s)); [apply ref_same|].
  eapply ref_bind; [apply ref_same|]. intros b ? <-. destruct (negb b); [apply ref_same|].
  destruct s as [|c s]; [apply ref_undef|]. apply IH. replace (off + S n)%nat with (S (off + n)) by lia. exact (str_at_tl _ _ _ _ H).
Qed.

Lemma scan_text_ok : forall fuel a off s n, str_at a (off + n) s ->
  refines eq (scan_text_raw fuel a off n) (scan_text fuel s n).
Proof.
  induction fuel as [|k IH]; intros a off s n H; cbn [scan_text_raw scan_text]; [apply ref_same|].
  rewrite (str_at_hdc _ _ _ H). cbn [bind]. destruct (is_end_of_token (hdc s) || Ascii.eqb (hdc s) ":"); [apply ref_same|].
  eapply ref_bind; [apply ref_same|]. intros b ? <-. destruct (negb b); [apply ref_same|].
  destruct s as [|c s]; [apply ref_undef|]. apply IH. replace (off + S n)%nat with (S (off + n)) by lia. exact (str_at_tl _ _ _ _ H).
Qed.

Lemma small_lit : forall s, forallb (fun c => negb (Ascii.eqb c ch_nul)) (T s) = true -> str_at (lit s) 0 (T s).
Proof.
  intros s B. apply lit_at. intro I. rewrite forallb_forall in B. specialize (B _ I). rewrite Ascii.eqb_refl in B. discriminate B.
Qed.

Lemma cmp_ok : forall t u s, TR t u -> forallb (fun c => negb (Ascii.eqb c ch_nul)) (T s) = true ->
  strcmp_equal (tk_str t) (lit s) = Ret (text_eqb (tk_str u) (T s)).
Proof. intros t u s H B. apply strcmp_at; [apply TR_str; exact H|apply small_lit; exact B]. Qed.

Lemma lex_directive_ok : forall a off c s t u, str_at a off (c :: s) -> TR t u ->
  refines P2 (lex_directive_raw a off t) (lex_directive off (c :: s) u).
Proof.
  intros a off c s t u H K. unfold lex_directive_raw, lex_directive.
  eapply ref_bind.
  { apply scan_directive_ok. cbn [tl]. replace (off + 1)%nat with (S off) by lia. exact (str_at_tl _ _ _ _ H). }
  intros r ? <-. destruct r as [n|n].
  2:{ apply ref_ret. split; [reflexivity|]. apply TR_set_error. exact K. }
  destruct (Nat.eqb n MAX_TOKEN_STR_LEN).
  { apply ref_ret. split; [reflexivity|]. apply TR_set_error. exact K. }
  eapply ref_bind; [apply token_strncpy_ok; [exact K|exact H]|]. intros t1 u1 K1.
  rewrite !(cmp_ok _ _ _ K1) by reflexivity. cbn [bind].
  destruct (text_eqb (tk_str u1) (T ".DEFINE")); [apply ref_ret; split; [reflexivity|]; apply TR_set_type; exact K1|].
  destruct (text_eqb (tk_str u1) (T ".EQU")); [apply ref_ret; split; [reflexivity|]; apply TR_set_type; exact K1|].
  destruct (text_eqb (tk_str u1) (T ".ORG")); [apply ref_ret; split; [reflexivity|]; apply TR_set_type; exact K1|].
  destruct (text_eqb (tk_str u1) (T ".END")); [apply ref_ret; split; [reflexivity|]; apply TR_set_type; exact K1|].
  apply ref_ret; split; [reflexivity|]; apply TR_set_error; exact K1.
Qed.

Lemma lex_text_ok : forall a off s t u i, str_at a off s -> TR t u ->
  refines P3 (lex_text_raw a off t i) (lex_text off s u i).
Proof.
  intros a off s t u i H K. unfold lex_text_raw, lex_text.
  eapply ref_bind. { apply scan_text_ok. rewrite Nat.add_0_r. exact H. }
  intros r ? <-. destruct r as [n|n].
  2:{ apply ref_ret. split; [reflexivity|]. split; [|reflexivity]. apply TR_set_error. exact K. }
  destruct (Nat.eqb n MAX_TOKEN_STR_LEN).
  { apply ref_ret. split; [reflexivity|]. split; [|reflexivity]. apply TR_set_error. exact K. }
  eapply ref_bind; [apply token_strncpy_ok; [exact K|exact H]|]. intros t1 u1 K1.
  rewrite !(cmp_ok _ _ _ K1) by reflexivity. cbn [bind].
  destruct (text_eqb (tk_str u1) (T "X")); [apply ref_ret; split; [reflexivity|]; split; [|reflexivity]; apply TR_set_type; exact K1|].
  destruct (text_eqb (tk_str u1) (T "Y")); [apply ref_ret; split; [reflexivity|]; split; [|reflexivity]; apply TR_set_type; exact K1|].
  destruct (text_eqb (tk_str u1) (T "A")); [apply ref_ret; split; [reflexivity|]; split; [|reflexivity]; apply TR_set_type; exact K1|].
  destruct (lex_instruction_ok t1 u1 i K1) as ([[x1 x2] x3] & -> & (E1 & E2 & E3)). cbn [bind].
  destruct (lex_instruction u1 i) as [[y1 y2] y3]. cbn [fst snd] in *. subst x1 x3.
  destruct (y1 =? ERROR_INSTRUCTION_NOT_FOUND); apply ref_ret; (split; [reflexivity|]; split; [|reflexivity]); [apply TR_set_type|]; exact E2.
Qed.

Lemma lex_ok : forall a off c s t u i, str_at a off (c :: s) -> TR t u ->
  refines P3 (lex_raw a off t i) (lex off (c :: s) u i).
Proof.
  intros a off c s t u i H K. unfold lex_raw, lex. rewrite (str_at_hdc _ _ _ H). cbn [bind hdc].
  pose proof (TR_set_loc _ _ off K) as KL.
  assert (S1 : forall ty str, forallb (fun c => negb (Ascii.eqb c ch_nul)) (T str) = true ->
    refines P3 (tk1 <- token_strncpy_raw (tk_set_type (tk_set_loc t off) ty) (lit str) 0 1;; Ret (1, tk1, i))
               (tk1 <- token_strncpy (tk_set_type (tk_set_loc u off) ty) (T str) 1;; Ret (1, tk1, i))).
  { intros ty str B. eapply ref_bind; [apply token_strncpy_ok; [apply TR_set_type; exact KL|apply small_lit; exact B]|].
    intros t1 u1 K1. apply ref_ret. split; [reflexivity|]. split; [exact K1|reflexivity]. }
  destruct (Ascii.eqb c "#"); [apply S1; reflexivity|].
  destruct (Ascii.eqb c "("); [apply S1; reflexivity|].
  destruct (Ascii.eqb c ")"); [apply S1; reflexivity|].
  destruct (Ascii.eqb c ","); [apply S1; reflexivity|].
  destruct (Ascii.eqb c "="); [apply S1; reflexivity|].
  destruct (Ascii.eqb c "*"); [apply S1; reflexivity|].
  eapply ref_bind; [apply ref_same|]. intros b ? <-. destruct b; [apply lex_text_ok; [exact H|exact KL]|].
  destruct (Ascii.eqb c "$" || Ascii.eqb c "%" || in_range 48 (schar c) 57).
  { destruct (lex_literal_ok a off (c :: s) _ _ H KL) as ([x1 x2] & -> & (E1 & E2)). cbn [bind].
    destruct (lex_literal off (c :: s) (tk_set_loc u off)) as [y1 y2]. cbn [fst snd] in *. subst x1.
    apply ref_ret. split; [reflexivity|]. split; [exact E2|reflexivity]. }
  destruct (Ascii.eqb c ".").
  { eapply ref_bind; [apply lex_directive_ok; [exact H|exact KL]|]. intros [x1 x2] [y1 y2] (E1 & E2). cbn [fst snd] in *. subst x1.
    apply ref_ret. split; [reflexivity|]. split; [exact E2|reflexivity]. }
  apply ref_ret. split; [reflexivity|]. split; [|reflexivity]. apply TR_set_error. exact KL.
Qed.

(** ** lex_line *)
Lemma skip_blanks_ok : forall s fuel a off, str_at a off s -> (List.length s < fuel)%nat ->
  skip_blanks_raw fuel a off = Ret (fst (skip_blanks off s)) /\ str_at a (fst (skip_blanks off s)) (snd (skip_blanks off s)).
Proof.
  induction s as [|c s IH]; intros fuel a off H F; (destruct fuel as [|k]; [lia|]); cbn [skip_blanks_raw skip_blanks];
    rewrite (str_at_hdc _ _ _ H); cbn [bind hdc].
  - replace (is_blank ch_nul) with false by reflexivity. split; [reflexivity|exact H].
  - destruct (is_blank c); [|split; [reflexivity|exact H]].
    apply IH; [exact (str_at_tl _ _ _ _ H)|cbn [List.length] in F; lia].
Qed.

Lemma skip_blanks_raw_ok : forall s a off, str_at a off s ->
  skip_blanks_raw (S (List.length a)) a off = Ret (fst (skip_blanks off s)) /\ str_at a (fst (skip_blanks off s)) (snd (skip_blanks off s)).
Proof. intros s a off H. apply skip_blanks_ok; [exact H|]. pose proof (str_at_length _ _ _ H). lia. Qed.

Definition RR (x y : LexResult) : Prop :=
  match x, y with (c, l, t, i, o), (d, m, u, j, p) => c = d /\ LR l m /\ TR t u /\ i = j /\ o = p end.

Lemma fill_null_ok : forall n l m, Forall2 TR l m -> Forall2 TR (fill_null n l) (fill_null n m).
Proof.
  intros n l m F. revert n. induction F as [|t u l m H F IH]; intros [|n]; cbn [fill_null]; constructor;
    solve [exact H | apply IH | apply TR_set_type; exact H].
Qed.

Lemma lex_loop_ok : forall fuel k a buffer off s l m t u i o, str_at a 0 buffer -> str_at a off s -> LR l m -> TR t u ->
  (fuel <= k)%nat ->
  refines RR (lex_loop_raw k a off l t i o) (lex_loop fuel buffer off s m u i o).
Proof.
  induction fuel as [|fuel IH]; intros k a buffer off s l m t u i o HB H HL HT F; [intros y E; discriminate E|].
  destruct k as [|k]; [lia|]. cbn [lex_loop lex_loop_raw]. rewrite (str_at_hdc _ _ _ H). cbn [bind].
  destruct (end_line_lexing (hdc s)) eqn:EE.
  { apply ref_ret. split; [reflexivity|]. split; [|split; [exact HT|split; reflexivity]].
    rewrite (LR_curr _ _ HL). apply seq_LR; cbn [lx_set_seq lx_seq lx_curr lx_error_tk lx_line lx_line_num lx_file];
      [apply fill_null_ok; apply LR_seq; exact HL|apply LR_curr; exact HL|apply LR_error; exact HL|apply LR_line; exact HL
      |apply LR_num; exact HL|apply LR_file; exact HL]. }
  destruct s as [|c s]; [discriminate EE|].
  eapply ref_bind; [apply lex_ok; [exact H|exact HT]|].
  intros [[n t1] i1] [[n' u1] i1'] (E1 & K1 & E3). cbn [fst snd] in *. subst n' i1'.
  destruct (n <? 0).
  { rewrite (LR_file _ _ HL), (LR_num _ _ HL), (TR_error _ _ K1).
    eapply ref_bind; [apply print_error_ok; exact HB|]. intros o1 ? <-.
    apply ref_ret. split; [reflexivity|]. split; [exact HL|]. split; [exact K1|split; reflexivity]. }
  eapply ref_bind; [apply add_token_ok; [exact HL|exact K1]|].
  intros [[r l1] o1] [[r' m1] o1'] (E4 & HL1 & E5 & _). cbn [fst snd] in *. subst r' o1'.
  destruct (r =? ERROR_TOO_MANY_TOKENS).
  { apply ref_ret. split; [reflexivity|]. split; [exact HL1|]. split; [exact K1|split; reflexivity]. }
  destruct (Nat.ltb_spec (List.length (c :: s)) (Z.to_nat n)) as [B|B]; [apply ref_undef|].
  pose proof (str_at_skip _ _ _ _ H B) as H1. set (s1 := skipn (Z.to_nat n) (c :: s)) in *.
  rewrite (str_at_hdc _ _ _ H1). cbn [bind].
  destruct (Ascii.eqb_spec (hdc s1) ":"%char) as [EC|_].
  - rewrite (TR_type _ _ K1), (LR_curr _ _ HL1).
    destruct (ty_eqb (tk_type u1) TOKEN_LABEL && (lx_curr m1 =? 1)).
    + assert (H2 : str_at a (S (off + Z.to_nat n)) (tl s1)).
      { destruct s1 as [|c1 s1]; [discriminate EC|]. exact (str_at_tl _ _ _ _ H1). }
      destruct (skip_blanks_raw_ok _ _ _ H2) as [-> H3]. cbn [bind].
      destruct (skip_blanks (S (off + Z.to_nat n)) (tl s1)) as [off2 s2]. cbn [fst snd] in *.
      apply IH; [exact HB|exact H3|exact HL1|exact K1|lia].
    + rewrite (LR_file _ _ HL1), (LR_num _ _ HL1).
      eapply ref_bind; [apply print_error_ok; exact HB|]. intros o2 ? <-.
      apply ref_ret. split; [reflexivity|]. split; [exact HL1|]. split; [apply TR_set_error; exact K1|split; reflexivity].
  - destruct (skip_blanks_raw_ok _ _ _ H1) as [-> H3]. cbn [bind].
    destruct (skip_blanks (off + Z.to_nat n) s1) as [off2 s2]. cbn [fst snd] in *.
    apply IH; [exact HB|exact H3|exact HL1|exact K1|lia].
Qed.

Lemma reset_all_ok : forall ts us, List.length ts = List.length us -> Forall (fun t => List.length (tk_str t) = MAX_TOKEN_STR_LEN) ts ->
  exists rs, reset_all ts = Ret rs /\ Forall2 TR rs (map reset_token us).
Proof.
  induction ts as [|t ts IH]; intros [|u us] L F; cbn [List.length] in L; try discriminate L; cbn [reset_all map].
  - exists []. split; [reflexivity|constructor].
  - inversion F as [|? ? F1 F2]; subst. destruct (reset_token_ok t u F1) as (t' & -> & K). cbn [bind].
    destruct (IH us) as (rs & -> & KS); [lia|exact F2|]. cbn [bind]. exists (t' :: rs). split; [reflexivity|]. constructor; assumption.
Qed.

Theorem lex_line_raw_ok : forall a s lexer_raw lexer tk_raw tk i num, str_at a 0 s ->
  List.length (lx_seq lexer_raw) = List.length (lx_seq lexer) ->
  Forall (fun t => List.length (tk_str t) = MAX_TOKEN_STR_LEN) (lx_seq lexer_raw) ->
  List.length (tk_str tk_raw) = MAX_TOKEN_STR_LEN -> lx_file lexer_raw = lx_file lexer ->
  refines RR (lex_line_raw a lexer_raw tk_raw i num) (lex_line s lexer tk i num).
Proof.
  intros a s lr l tr t i num H LS FS LT FI. unfold lex_line_raw, lex_line, reset_lexer_raw, reset_lexer.
  destruct (reset_all_ok _ _ LS FS) as (rs & -> & KS). cbn [bind lx_seq lx_curr lx_error_tk lx_file].
  destruct (reset_token_ok tr t LT) as (t' & -> & KT). cbn [bind].
  destruct (skip_blanks_raw_ok _ _ _ H) as [-> H3]. cbn [bind].
  destruct (skip_blanks 0 s) as [off2 s2]. cbn [fst snd] in *.
  apply lex_loop_ok; [exact H|exact H3| |exact KT|].
  - apply seq_LR; cbn [lx_seq lx_curr lx_error_tk lx_line lx_line_num lx_file line_rel]; try reflexivity; [exact KS|exact H|exact FI].
  - pose proof (str_at_length _ _ _ H). lia.
Qed.

(** ** lex_line keeps the number of the tokens *)
Lemma upd_len : forall (A : Type) (l : list A) i x, List.length (upd l i x) = List.length l.
Proof. induction l as [|y l IH]; intros [|i] x; cbn [upd List.length]; [reflexivity..|]. rewrite IH. reflexivity. Qed.

Lemma fill_null_len : forall n l, List.length (fill_null n l) = List.length l.
Proof. intros n l. revert n. induction l as [|t l IH]; intros [|n]; cbn [fill_null List.length]; [reflexivity..| |]; rewrite IH; reflexivity. Qed.

Lemma add_token_len : forall m u c m1 o, add_token m u = Ret (c, m1, o) -> List.length (lx_seq m1) = List.length (lx_seq m).
Proof.
  intros m u c m1 o E. unfold add_token in E. destruct (lx_curr m =? MAX_TOKENS); [injection E as <- <- <-; reflexivity|].
  destruct (get (lx_seq m) (lx_curr m)) as [x| |]; cbn [bind] in E; try discriminate E.
  destruct (ty_eqb (tk_type x) TOKEN_NULL).
  - destruct (token_strcpy (tk_set_type x (tk_type u)) (tk_str u)) as [x1| |]; cbn [bind] in E; try discriminate E.
    unfold put in E. destruct (in_range 0 (lx_curr m) (Z.of_nat (List.length (lx_seq m)) - 1)); cbn [bind] in E; [|discriminate E].
    injection E as <- <- <-. cbn [lx_seq]. apply upd_len.
  - destruct (print_error (lx_line m) ERROR_UNKNOWN None (lx_file m) (lx_line_num m)); cbn [bind] in E; try discriminate E.
    injection E as <- <- <-. reflexivity.
Qed.

Lemma lex_loop_len : forall fuel b off s m u i o c m1 u1 i1 o1, lex_loop fuel b off s m u i o = Ret (c, m1, u1, i1, o1) ->
  List.length (lx_seq m1) = List.length (lx_seq m).
Proof.
  induction fuel as [|fuel IH]; intros b off s m u i o c m1 u1 i1 o1 E; cbn [lex_loop] in E; [discriminate E|].
  destruct (end_line_lexing (hdc s)). { injection E as <- <- <- <- <-. cbn [lx_set_seq lx_seq]. apply fill_null_len. }
  destruct (lex off s u i) as [[[n u2] i2]| |]; cbn [bind] in E; try discriminate E.
  destruct (n <? 0).
  { destruct (print_error (Some b) n (tk_error_char u2) (lx_file m) (lx_line_num m)); cbn [bind] in E; try discriminate E.
    injection E as <- <- <- <- <-. reflexivity. }
  destruct (add_token m u2) as [[[r m2] o2]| |] eqn:EA; cbn [bind] in E; try discriminate E.
  pose proof (add_token_len _ _ _ _ _ EA) as L.
  destruct (r =? ERROR_TOO_MANY_TOKENS); [injection E as <- <- <- <- <-; exact L|].
  destruct (Nat.ltb (List.length s) (Z.to_nat n)); [discriminate E|].
  destruct (Ascii.eqb (hdc (skipn (Z.to_nat n) s)) ":").
  - destruct (ty_eqb (tk_type u2) TOKEN_LABEL && (lx_curr m2 =? 1)).
    + destruct (skip_blanks (S (off + Z.to_nat n)) (tl (skipn (Z.to_nat n) s))) as [off2 s2]. rewrite <- L. exact (IH _ _ _ _ _ _ _ _ _ _ _ _ E).
    + destruct (print_error (Some b) ERROR_ILLEGAL_CHAR (tk_error_char (tk_set_error u2 (off + Z.to_nat n))) (lx_file m2) (lx_line_num m2));
        cbn [bind] in E; try discriminate E. injection E as <- <- <- <- <-. exact L.
  - destruct (skip_blanks (off + Z.to_nat n) (skipn (Z.to_nat n) s)) as [off2 s2]. rewrite <- L. exact (IH _ _ _ _ _ _ _ _ _ _ _ _ E).
Qed.

Lemma lex_line_len : forall s l t i num c l1 t1 i1 o, lex_line s l t i num = Ret (c, l1, t1, i1, o) ->
  List.length (lx_seq l1) = List.length (lx_seq l).
Proof.
  intros s l t i num c l1 t1 i1 o E. unfold lex_line in E. destruct (skip_blanks 0 s) as [off s2].
  rewrite (lex_loop_len _ _ _ _ _ _ _ _ _ _ _ _ _ E). cbn [reset_lexer lx_seq]. apply map_length.
Qed.

(** ** The parser keeps the strings of the tokens *)
Definition kept (l m : Lexer) : Prop := map tk_str (lx_seq m) = map tk_str (lx_seq l).

Lemma kept_refl : forall l, kept l l. Proof. reflexivity. Qed.
Lemma kept_trans : forall l m n, kept l m -> kept m n -> kept l n.
Proof. intros l m n H K. unfold kept in *. rewrite K. exact H. Qed.

Lemma upd_strs : forall (l : list Token) n t u, nth_error l n = Some t -> tk_str u = tk_str t -> map tk_str (upd l n u) = map tk_str l.
Proof.
  induction l as [|x l IH]; intros [|n] t u E K; cbn [nth_error upd map] in *; try discriminate E.
  - injection E as ->. rewrite K. reflexivity.
  - rewrite (IH n t u E K). reflexivity.
Qed.

Lemma set_value_kept : forall l i v m, set_value_at l i v = Ret m -> kept l m.
Proof.
  intros l i v m E. unfold set_value_at, get, put in E. destruct (i <? 0); [discriminate E|].
  destruct (nth_error (lx_seq l) (Z.to_nat i)) as [t|] eqn:G; cbn [bind] in E; [|discriminate E].
  destruct (in_range 0 i (Z.of_nat (List.length (lx_seq l)) - 1)); cbn [bind] in E; [|discriminate E].
  injection E as <-. unfold kept. cbn [lx_set_seq lx_seq]. exact (upd_strs _ _ t (tk_set_value t v) G eq_refl).
Qed.

Lemma syntax_kept : forall l code i c m o, syntax_error l code i = Ret (c, m, o) -> kept l m.
Proof.
  intros l code i c m o E. unfold syntax_error in E. destruct (get (lx_seq l) i) as [t| |]; cbn [bind] in E; try discriminate E.
  destruct (print_error (lx_line l) code (tk_loc t) (lx_file l) (lx_line_num l)); cbn [bind] in E; try discriminate E.
  injection E as <- <- <-. reflexivity.
Qed.

Lemma plain_kept : forall l code c m o, plain_error l code = Ret (c, m, o) -> kept l m.
Proof.
  intros l code c m o E. unfold plain_error in E.
  destruct (print_error (lx_line l) code None (lx_file l) (lx_line_num l)); cbn [bind] in E; try discriminate E.
  injection E as <- <- <-. reflexivity.
Qed.

Lemma accept_kept : forall l c m o, accept l = Ret (c, m, o) -> kept l m.
Proof. intros l c m o E. injection E as <- <- <-. reflexivity. Qed.

Ltac keep :=
  repeat match goal with
  | E : (bind ?m _) = Ret _ |- _ => let G := fresh "G" in destruct m eqn:G; cbn [bind] in E; [|discriminate E|discriminate E]
  | E : (if ?b then _ else _) = Ret _ |- _ => destruct b
  end;
  try solve [eapply syntax_kept; eassumption | eapply plain_kept; eassumption | eapply accept_kept; eassumption].

Lemma indirect_kept : forall l i c m o, parse_indirect_operand_tree l i = Ret (c, m, o) -> kept l m.
Proof. intros l i c m o E. unfold parse_indirect_operand_tree in E. keep. Qed.
Lemma instr_kept : forall l i c m o, parse_instr_tree l i = Ret (c, m, o) -> kept l m.
Proof. intros l i c m o E. unfold parse_instr_tree in E. keep. eapply indirect_kept. eassumption. Qed.
Lemma label_kept : forall l i c m o, parse_label_tree l i = Ret (c, m, o) -> kept l m.
Proof. intros l i c m o E. unfold parse_label_tree in E. keep. eapply instr_kept. eassumption. Qed.
Lemma directive_kept : forall l i c m o, parse_directive_tree l i = Ret (c, m, o) -> kept l m.
Proof.
  intros l i c m o E. unfold parse_directive_tree in E. keep.
  eapply kept_trans; [eapply set_value_kept; eassumption|eapply accept_kept; eassumption].
Qed.
Lemma base_kept : forall l i c m o, parse_base_tree l i = Ret (c, m, o) -> kept l m.
Proof.
  intros l i c m o E. unfold parse_base_tree in E. keep.
  eapply kept_trans; [eapply set_value_kept; eassumption|eapply accept_kept; eassumption].
Qed.
Lemma parse_line_kept : forall l c m o, parse_line l = Ret (c, m, o) -> kept l m.
Proof.
  intros l c m o E. unfold parse_line in E. keep;
    [eapply instr_kept|eapply label_kept|eapply directive_kept|eapply base_kept]; eassumption.
Qed.
Lemma declare_kept : forall rs sy l tab i f v c m t o, declare rs sy l tab i f v = Ret (c, m, t, o) -> kept l m.
Proof.
  intros rs sy l tab i f v c m t o E. unfold declare in E. destruct (negb (f =? ERROR_SYMBOL_NOT_FOUND)).
  - destruct (syntax_error l ERROR_LABEL_REDEFINITION i) as [[[c1 l1] o1]| |] eqn:G; cbn [bind] in E; try discriminate E.
    injection E as <- <- <- <-. eapply syntax_kept; exact G.
  - destruct (set_value_at l i v) as [l1| |] eqn:G; cbn [bind] in E; try discriminate E.
    destruct (get (lx_seq l1) i) as [t1| |]; cbn [bind] in E; try discriminate E.
    destruct (insert_symbol rs sy tab (tk_str t1) (tk_value t1)) as [[c1 tab1]| |]; cbn [bind] in E; try discriminate E.
    injection E as <- <- <- <-. eapply set_value_kept; exact G.
Qed.
Lemma declaration_kept : forall rs sy l tab pc c m t o, parse_label_declaration rs sy l tab pc = Ret (c, m, t, o) -> kept l m.
Proof.
  intros rs sy l tab pc c m t o E. unfold parse_label_declaration in E. keep; try (eapply declare_kept; eassumption).
  destruct a3 as [[c1 l1] o1]. injection E as <- <- <- <-. eapply plain_kept; eassumption.
Qed.
Lemma operand_kept : forall l i op tab c m o, parse_operand l i op tab = Ret (c, m, o) -> kept l m.
Proof.
  intros l i op tab c m o E. unfold parse_operand in E. destruct op as [k|]; [|injection E as <- <- <-; reflexivity].
  keep;
    solve [ injection E as <- <- <-; reflexivity
          | unfold parse_label_operand in E; keep; injection E as <- <- <-; first [reflexivity | eapply set_value_kept; eassumption] ].
Qed.
