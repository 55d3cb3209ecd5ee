(** Proof_Lex2.v -- one line: [lex_line] of the model computes what Spec_Text says. *)
From Verif Require Import Base Proof_Base Model_Opcode Model_Error Model_Lexer
  Spec_Isa Spec_Text Spec_Link Spec_Report Proof_Opcode Proof_Chars Proof_Error Proof_Lex1.

Notation wr := literal_wrapping.

(** the structs after the tokens [toks] *)
Fixpoint run_toks (tk : Token) (toks : list (tok * nat)) : list Token :=
  match toks with
  | [] => []
  | p :: toks' => tk_next tk p :: run_toks (tk_next tk p) toks'
  end.
Definition last_tk (tk : Token) (toks : list (tok * nat)) : Token := fold_left tk_next toks tk.
Definition instr_run (i : Instruction) (toks : list (tok * nat)) : Instruction :=
  fold_left (fun i p => instr_next i (fst p)) toks i.
Definition pad (l : list Token) : list Token := l ++ repeat init_token (8 - List.length l).

Lemma run_toks_length : forall toks tk, List.length (run_toks tk toks) = List.length toks.
Proof. induction toks; cbn; intros; auto. Qed.

Section Line.
Variables (buffer file : text) (line_num : Z).

Definition LX (done : list Token) : Lexer :=
  mkLexer (pad done) (Z.of_nat (List.length done)) None (Some buffer) line_num file.

Definition good_tk (tk : Token) : Prop :=
  tk_error_char tk = None /\ (List.length (tk_str tk) < 64)%nat.

Lemma upd_app_mid : forall A (l1 : list A) y l2 x,
  upd (l1 ++ y :: l2) (List.length l1) x = l1 ++ x :: l2.
Proof. induction l1; cbn; intros; [reflexivity|]. rewrite IHl1. reflexivity. Qed.

Lemma nth_app_mid : forall A (l1 : list A) y l2, nth_error (l1 ++ y :: l2) (List.length l1) = Some y.
Proof. induction l1; cbn; intros; auto. Qed.

Lemma pad_cons : forall done, (List.length done < 8)%nat ->
  pad done = done ++ init_token :: repeat init_token (8 - S (List.length done)).
Proof.
  intros done L. unfold pad. f_equal.
  replace (8 - List.length done)%nat with (S (8 - S (List.length done))) by lia. reflexivity.
Qed.

Lemma pad_length : forall done, (List.length done <= 8)%nat -> List.length (pad done) = 8%nat.
Proof. intros. unfold pad. rewrite app_length, repeat_length. lia. Qed.

Lemma add_token_ok : forall done tk, (List.length done < 8)%nat -> good_tk tk ->
  add_token (LX done) tk = Ret (TOKEN_INSERTION_SUCCESS, LX (done ++ [tk]), []).
Proof.
  intros done tk L [He Hs]. unfold add_token. cbn [LX lx_curr lx_seq].
  unfold MAX_TOKENS. destruct (Z.eqb_spec (Z.of_nat (List.length done)) 8); [lia|].
  unfold get. destruct (Z.ltb_spec (Z.of_nat (List.length done)) 0); [lia|].
  rewrite Nat2Z.id. rewrite (pad_cons done L), nth_app_mid. cbn [bind].
  change (ty_eqb (tk_type init_token) TOKEN_NULL) with true. cbv iota.
  assert (token_strcpy (tk_set_type init_token (tk_type tk)) (tk_str tk) =
          Ret (mkTok (tk_type tk) (tk_str tk) 0 None None)) as ->.
  { unfold token_strcpy, MAX_TOKEN_STR_LEN. destruct (tk_str tk) eqn:E; [reflexivity|].
    rewrite <- E in *. destruct (Nat.ltb_spec (List.length (tk_str tk)) 64); [|lia].
    unfold tk_set_str, tk_set_type. cbn. rewrite E. reflexivity. }
  cbn [bind tk_type tk_str tk_error_char]. unfold put.
  assert (in_range 0 (Z.of_nat (List.length done))
    (Z.of_nat (List.length (done ++ init_token :: repeat init_token (8 - S (List.length done)))) - 1)
    = true) as ->.
  { apply in_range_spec. rewrite app_length. cbn [List.length]. lia. }
  cbn [bind]. rewrite Nat2Z.id, upd_app_mid. unfold LX. f_equal. f_equal. f_equal.
  assert (mkTok (tk_type tk) (tk_str tk) (tk_value tk) None (tk_loc tk) = tk) as Etk.
  { destruct tk; cbn in *. congruence. }
  rewrite Etk. rewrite app_length. cbn [List.length]. f_equal; [|lia].
  unfold pad. rewrite <- app_assoc. cbn [app]. f_equal. f_equal. f_equal.
  rewrite app_length. cbn [List.length]. lia.
Qed.

Lemma add_token_full : forall done tk, List.length done = 8%nat ->
  add_token (LX done) tk = Ret (ERROR_TOO_MANY_TOKENS, LX done, []).
Proof. intros done tk L. unfold add_token. cbn [LX lx_curr]. rewrite L. reflexivity. Qed.

Lemma fill_null_pad : forall done, (List.length done <= 8)%nat ->
  fill_null (List.length done) (pad done) = pad done.
Proof.
  intros done _. unfold pad.
  assert (K : forall n, fill_null 0 (repeat init_token n) = repeat init_token n).
  { induction n; cbn; auto. rewrite IHn. reflexivity. }
  generalize (8 - List.length done)%nat as m. intro m. induction done; cbn; auto.
  rewrite IHdone. reflexivity.
Qed.

Definition LL (fuel : nat) (off : nat) (s : text) (done : list Token) (tk : Token)
    (instr : Instruction) : M LexResult :=
  let '(o, s') := skip_blanks off s in lex_loop fuel buffer o s' (LX done) tk instr [].

Lemma LL_blank : forall fuel off c s done tk instr, blank c ->
  LL fuel off (c :: s) done tk instr = LL fuel (S off) s done tk instr.
Proof.
  intros. unfold LL. cbn [skip_blanks]. apply is_blank_spec in H. rewrite H. reflexivity.
Qed.

Lemma LL_nonblank : forall fuel off s done tk instr, ~ blank (hdc s) ->
  LL fuel off s done tk instr = lex_loop fuel buffer off s (LX done) tk instr [].
Proof.
  intros. unfold LL. destruct s as [|c s]; [reflexivity|]. cbn [skip_blanks hdc] in *.
  destruct (is_blank c) eqn:E; [|reflexivity]. apply is_blank_spec in E. tauto.
Qed.

Lemma skipn_app_len : forall A (w s : list A), skipn (List.length w) (w ++ s) = s.
Proof. induction w; cbn; auto. Qed.

(** one token was read by [lex] *)
Lemma loop_token : forall fuel off w r done tk instr t, w <> [] ->
  ~ line_end (hdc w) -> ~ blank (hdc w) ->
  lex off (w ++ r) tk instr = Ret (Z.of_nat (List.length w), tk_next tk (t, off), instr_next instr t) ->
  good_tk (tk_next tk (t, off)) -> (List.length done < 8)%nat ->
  (forall s', r <> ":"%char :: s') ->
  LL (S fuel) off (w ++ r) done tk instr =
  LL fuel (off + List.length w) r (done ++ [tk_next tk (t, off)]) (tk_next tk (t, off))
     (instr_next instr t).
Proof.
  intros fuel off w r done tk instr t Hw Hne Hnb Hlex Hg Hl Hc.
  assert (Hh : hdc (w ++ r) = hdc w) by (destruct w; [congruence|reflexivity]).
  rewrite LL_nonblank by (rewrite Hh; auto). cbn [lex_loop].
  rewrite (not_end_line (hdc (w ++ r))) by (rewrite Hh; auto). rewrite Hlex. cbn [bind].
  destruct (Z.ltb_spec (Z.of_nat (List.length w)) 0); [lia|].
  rewrite add_token_ok by auto. cbn [bind].
  change (TOKEN_INSERTION_SUCCESS =? ERROR_TOO_MANY_TOKENS) with false. cbv iota.
  rewrite Nat2Z.id. destruct (Nat.ltb_spec (List.length (w ++ r)) (List.length w)) as [K|_].
  { rewrite app_length in K. lia. }
  rewrite skipn_app_len.
  destruct (Ascii.eqb_spec (hdc r) ":"%char) as [E|_].
  { destruct r as [|c r]; cbn in E; [discriminate|]. subst. exfalso. eapply Hc; eauto. }
  reflexivity.
Qed.

(** a first label followed by a colon *)
Lemma loop_label : forall fuel off w r tk instr n, w <> [] ->
  ~ line_end (hdc w) -> ~ blank (hdc w) ->
  lex off (w ++ ":"%char :: r) tk instr =
    Ret (Z.of_nat (List.length w), tk_next tk (TLabel n, off), instr) ->
  good_tk (tk_next tk (TLabel n, off)) ->
  LL (S fuel) off (w ++ ":"%char :: r) [] tk instr =
  LL fuel (off + List.length w + 1) r [tk_next tk (TLabel n, off)] (tk_next tk (TLabel n, off)) instr.
Proof.
  intros fuel off w r tk instr n Hw Hne Hnb Hlex Hg.
  assert (Hh : hdc (w ++ ":"%char :: r) = hdc w) by (destruct w; [congruence|reflexivity]).
  rewrite LL_nonblank by (rewrite Hh; auto). cbn [lex_loop].
  rewrite (not_end_line (hdc (w ++ ":"%char :: r))) by (rewrite Hh; auto). rewrite Hlex. cbn [bind].
  destruct (Z.ltb_spec (Z.of_nat (List.length w)) 0); [lia|].
  rewrite add_token_ok by (auto; cbn; lia). cbn [bind].
  change (TOKEN_INSERTION_SUCCESS =? ERROR_TOO_MANY_TOKENS) with false. cbv iota.
  rewrite Nat2Z.id. destruct (Nat.ltb_spec (List.length (w ++ ":"%char :: r)) (List.length w)) as [K|_].
  { rewrite app_length in K. lia. }
  rewrite skipn_app_len. cbn [hdc tl].
  change (Ascii.eqb ":" ":") with true. cbv iota.
  change (ty_eqb (tk_type (tk_next tk (TLabel n, off))) TOKEN_LABEL) with true.
  cbn [LX lx_curr app List.length Z.of_nat]. change (Z.pos (Pos.of_succ_nat 0) =? 1) with true.
  cbn [andb]. unfold LL. rewrite Nat.add_1_r. reflexivity.
Qed.

(** any token followed by a colon that is not allowed *)
Lemma loop_colon : forall fuel off w r done tk instr t, w <> [] ->
  ~ line_end (hdc w) -> ~ blank (hdc w) ->
  lex off (w ++ ":"%char :: r) tk instr =
    Ret (Z.of_nat (List.length w), tk_next tk (t, off), instr_next instr t) ->
  good_tk (tk_next tk (t, off)) -> (List.length done < 8)%nat ->
  ~ (done = [] /\ exists n, t = TLabel n) ->
  exists tk',
  LL (S fuel) off (w ++ ":"%char :: r) done tk instr =
  (o <- print_error (Some buffer) ERROR_ILLEGAL_CHAR (Some (off + List.length w)%nat) file line_num ;;
   Ret (ERROR_ILLEGAL_CHAR, LX (done ++ [tk_next tk (t, off)]), tk', instr_next instr t, o)).
Proof.
  intros fuel off w r done tk instr t Hw Hne Hnb Hlex Hg Hl Hc.
  assert (Hh : hdc (w ++ ":"%char :: r) = hdc w) by (destruct w; [congruence|reflexivity]).
  eexists.
  rewrite LL_nonblank by (rewrite Hh; auto). cbn [lex_loop].
  rewrite (not_end_line (hdc (w ++ ":"%char :: r))) by (rewrite Hh; auto). rewrite Hlex. cbn [bind].
  destruct (Z.ltb_spec (Z.of_nat (List.length w)) 0); [lia|].
  rewrite add_token_ok by auto. cbn [bind].
  change (TOKEN_INSERTION_SUCCESS =? ERROR_TOO_MANY_TOKENS) with false. cbv iota.
  rewrite Nat2Z.id. destruct (Nat.ltb_spec (List.length (w ++ ":"%char :: r)) (List.length w)) as [K|_].
  { rewrite app_length in K. lia. }
  rewrite skipn_app_len. cbn [hdc tl].
  change (Ascii.eqb ":" ":") with true. cbv iota.
  cbn [LX lx_curr lx_file lx_line_num].
  assert (ty_eqb (tk_type (tk_next tk (t, off))) TOKEN_LABEL &&
          (Z.of_nat (List.length (done ++ [tk_next tk (t, off)])) =? 1) = false) as ->.
  { apply andb_false_iff. rewrite app_length. cbn [List.length tk_next tk_type fst].
    destruct (Z.eqb_spec (Z.of_nat (List.length done + 1)) 1) as [E|]; [|auto]. left.
    unfold ty_eqb. destruct (TokenType_eq_dec (type_of t) TOKEN_LABEL) as [E'|]; auto.
    exfalso. apply Hc. split; [destruct done; [auto|cbn in E; lia]|].
    destruct t as [n0| | | | | | | | | | | |[]]; try discriminate E'. eauto. }
  cbn [tk_set_error tk_error_char]. reflexivity.
Qed.

(** a word starts with a character that is neither blank nor an end of line *)
Lemma word_head : forall lit w t, word lit w t ->
  w <> [] /\ ~ line_end (hdc w) /\ ~ blank (hdc w) /\ code (hdc w) < 128.
Proof.
  intros lit w t H. destruct H as [w t (c & cs & -> & Hl & _) _ _|w n v (b & ds & -> & Hn) _|w d Hd].
  - repeat split; try discriminate; cbn [hdc]; try (intro K; chars). unfold letter in Hl. lia.
  - destruct b; cbn [prefix app].
    + repeat split; try discriminate; cbn [hdc]; intro K; chars.
    + repeat split; try discriminate; cbn [hdc]; intro K; chars.
    + inversion Hn; subst; match goal with H : digit_of Dec _ _ |- _ => inversion H; subst end;
        (repeat split; [discriminate| | |]; cbn [hdc]; try (intro K; chars); lia).
  - destruct (directive_shape w d Hd) as (cs & -> & _).
    repeat split; try discriminate; cbn [hdc]; intro K; chars.
Qed.

Lemma punct_head : forall c t, punct c t -> ~ line_end c /\ ~ blank c /\ code c < 128 /\ c <> ":"%char.
Proof.
  intros c t H. destruct H as [H|[H|[H|[H|[H|H]]]]]; injection H as -> ->;
    (repeat split; [intro K; chars|intro K; chars|discriminate]).
Qed.

Lemma word_good : forall w t tk off, word wr w t -> good_tk tk -> good_tk (tk_next tk (t, off)).
Proof.
  intros w t tk off H [G1 G2]. split; [exact G1|]. cbn [tk_next tk_str fst].
  destruct H as [w t I L M|w n v _ _|w d D].
  - rewrite (text_of_means w t _ M), map_length. lia.
  - cbn. exact G2.
  - destruct (directive_shape w d D) as (cs & -> & _ & L & E).
    assert (tok_text (TDirective d) (tk_str tk) = tok_text (TDirective d) []) as -> by (destruct d; reflexivity).
    rewrite E, map_length. cbn [List.length]. lia.
Qed.

Lemma punct_good : forall c t tk off, punct c t -> good_tk tk -> good_tk (tk_next tk (t, off)).
Proof.
  intros c t tk off H [G1 G2]. split; [exact G1|]. cbn [tk_next tk_str fst].
  destruct H as [H|[H|[H|[H|[H|H]]]]]; injection H as -> ->; cbn; lia.
Qed.

(** results that differ at most in the running token and instruction after an error *)
Definition res_eq (r1 r2 : M LexResult) : Prop :=
  r1 = r2 \/ exists c lx tk1 tk2 i1 i2 (m : M text), c < 0 /\
    r1 = (o <- m ;; Ret (c, lx, tk1, i1, o)) /\ r2 = (o <- m ;; Ret (c, lx, tk2, i2, o)).

Lemma res_eq_refl : forall r, res_eq r r.
Proof. left; reflexivity. Qed.

(** a colon where no token can start is an illegal character *)
Lemma LL_at_colon : forall fuel off s done tk instr,
  exists tk', LL (S fuel) off (":"%char :: s) done tk instr =
  (o <- print_error (Some buffer) ERROR_ILLEGAL_CHAR (Some off) file line_num ;;
   Ret (ERROR_ILLEGAL_CHAR, LX done, tk', instr, o)).
Proof. intros. eexists. reflexivity. Qed.

Lemma word_not_colon : forall lit w t, word lit w t -> hdc w <> ":"%char.
Proof.
  intros lit w t H. destruct H as [w t (c & cs & -> & Hl & _) _ _|w n v (b & ds & -> & Hn) _|w d Hd].
  - cbn [hdc]. intro K. subst. chars.
  - destruct b; cbn [prefix app hdc]; try discriminate.
    inversion Hn; subst; match goal with H : digit_of Dec _ _ |- _ => inversion H; subst end;
      cbn [hdc]; intro K; subst; chars.
  - destruct (directive_shape w d Hd) as (cs & -> & _). discriminate.
Qed.

Lemma reads_colon : forall lit first off s l f' o' s', Reads lit first off (":"%char :: s) l f' o' s' ->
  l = [] /\ f' = first /\ o' = off /\ s' = ":"%char :: s.
Proof.
  intros lit first off s l f' o' s' H. inversion H; subst; auto.
  - exfalso. match goal with H : blank _ |- _ => destruct H; discriminate end.
  - exfalso. match goal with H : punct _ _ |- _ => apply punct_head in H; tauto end.
  - exfalso. match goal with H : word _ w _ |- _ => rename H into W end.
    destruct (word_head _ _ _ W) as (N & _). apply (word_not_colon _ _ _ W).
    destruct w as [|c w]; [congruence|].
    match goal with E : (c :: w) ++ _ = _ |- _ => cbn in E; injection E as -> _ end. reflexivity.
  - exfalso. match goal with H : word _ w _ |- _ => rename H into W end.
    destruct (word_head _ _ _ W) as (N & _). apply (word_not_colon _ _ _ W).
    destruct w as [|c w]; [congruence|].
    match goal with E : (c :: w) ++ _ = _ |- _ => cbn in E; injection E as -> _ end. reflexivity.
Qed.

(** ** Reading tokens *)
Lemma label_word_ident : forall lit w n, word lit w (TLabel n) -> ident w.
Proof. intros lit w n H. inversion H; auto. Qed.

Lemma reads_LL : forall first off s toks first' off' s',
  Reads wr first off s toks first' off' s' ->
  forall fuel done tk instr,
  (first = true <-> done = []) -> (List.length done + List.length toks <= 8)%nat ->
  (List.length s < fuel)%nat -> good_tk tk ->
  exists fuel', (List.length s' < fuel')%nat /\
    good_tk (last_tk tk toks) /\
    (first' = true <-> done ++ run_toks tk toks = []) /\
    res_eq (LL fuel off s done tk instr)
           (LL fuel' off' s' (done ++ run_toks tk toks) (last_tk tk toks) (instr_run instr toks)).
Proof.
  intros first off s toks first' off' s' H.
  induction H as [first off s|first off c s l first' off' s' Hb _ IH
                 |first off c t s l first' off' s' Hp HR IH
                 |first off w t s l first' off' s' Hw Hd HR IH|off w name s l first' off' s' Hw _ IH];
    intros fuel done tk instr Hf Hl Hfu Hg.
  - exists fuel. rewrite app_nil_r. repeat split; try (apply Hg); try (apply Hf); auto.
    apply res_eq_refl.
  - cbn [List.length] in Hfu.
    destruct (IH fuel done tk instr) as (fuel' & A & B & C & D); auto; [lia|].
    exists fuel'. repeat split; try (apply B); try (apply C); auto.
    rewrite LL_blank by auto. exact D.
  - destruct fuel as [|fuel]; [cbn in Hfu; lia|]. cbn [List.length] in Hfu, Hl.
    destruct (punct_head c t Hp) as (P1 & P2 & _ & P4).
    assert (Hlex : lex off ([c] ++ s) tk instr =
              Ret (Z.of_nat (List.length [c]), tk_next tk (t, off), instr_next instr t)).
    { cbn [app]. rewrite (lex_punct off c t s tk instr Hp).
      destruct Hp as [E|[E|[E|[E|[E|E]]]]]; injection E as -> ->; reflexivity. }
    assert (Hgn : good_tk (tk_next tk (t, off))) by (eapply punct_good; eauto).
    assert (Hs : (exists r, s = ":"%char :: r) \/ forall r, s <> ":"%char :: r).
    { destruct s as [|x r]; [right; discriminate|]. destruct (Ascii.ascii_dec x ":"%char) as [->|N];
        [left; eauto|right; congruence]. }
    destruct Hs as [[r ->]|Hs].
    + apply reads_colon in HR. destruct HR as (-> & -> & -> & ->).
      cbn [run_toks last_tk fold_left instr_run fst].
      destruct (loop_colon fuel off [c] r done tk instr t) as [tk1 E1]; auto; try discriminate; try lia.
      { intros [-> [n ->]]. destruct Hp as [E|[E|[E|[E|[E|E]]]]]; discriminate. }
      destruct (LL_at_colon fuel (S off) r (done ++ [tk_next tk (t, off)]) (tk_next tk (t, off))
                  (instr_next instr t)) as [tk2 E2].
      exists (S fuel). repeat split; try (apply Hgn); try (cbn [List.length] in *; lia).
      * intro K; destruct done; discriminate.
      * right. exists ERROR_ILLEGAL_CHAR, (LX (done ++ [tk_next tk (t, off)])), tk1, tk2,
          (instr_next instr t), (instr_next instr t),
          (print_error (Some buffer) ERROR_ILLEGAL_CHAR (Some (S off)) file line_num).
        repeat split.
        -- change (c :: ":"%char :: r) with ([c] ++ ":"%char :: r). rewrite E1. cbn [List.length].
           rewrite Nat.add_1_r. reflexivity.
        -- exact E2.
    + destruct (IH fuel (done ++ [tk_next tk (t, off)]) (tk_next tk (t, off)) (instr_next instr t))
        as (fuel' & A & B & C & D); auto.
      * split; [discriminate|intro K; destruct done; discriminate].
      * rewrite app_length. cbn [List.length]. lia.
      * lia.
      * exists fuel'. rewrite <- app_assoc in *. cbn [app] in *.
        repeat split; try (apply B); try (apply C); auto.
        change (c :: s) with ([c] ++ s).
        rewrite (loop_token fuel off [c] s done tk instr t); auto; try discriminate; try lia.
        cbn [List.length]. rewrite Nat.add_1_r. exact D.
  - destruct fuel as [|fuel]; [lia|]. cbn [List.length] in Hl.
    destruct (word_head _ _ _ Hw) as (W1 & W2 & W3 & _).
    assert (Hgn : good_tk (tk_next tk (t, off))) by (eapply word_good; eauto).
    destruct Hd as [Hd|(Hi & (r & ->) & Hnl)].
    + assert (Hlex : lex off (w ++ s) tk instr =
                Ret (Z.of_nat (List.length w), tk_next tk (t, off), instr_next instr t))
        by (apply lex_word; auto).
      destruct (IH fuel (done ++ [tk_next tk (t, off)]) (tk_next tk (t, off)) (instr_next instr t))
        as (fuel' & A & B & C & D); auto.
      * split; [discriminate|intro K; destruct done; discriminate].
      * rewrite app_length. cbn [List.length]. lia.
      * rewrite app_length in Hfu. destruct w; [congruence|cbn in Hfu; lia].
      * exists fuel'. rewrite <- app_assoc in *. cbn [app] in *.
        repeat split; try (apply B); try (apply C); auto.
        rewrite (loop_token fuel off w s done tk instr t); auto; try lia.
        intros s'' ->. cbn in Hd. chars.
    + apply reads_colon in HR. destruct HR as (-> & -> & -> & ->).
      cbn [run_toks last_tk fold_left instr_run fst].
      assert (Hlex : lex off (w ++ ":"%char :: r) tk instr =
                Ret (Z.of_nat (List.length w), tk_next tk (t, off), instr_next instr t)).
      { apply lex_word; auto. right. split; auto. eexists; reflexivity. }
      destruct (loop_colon fuel off w r done tk instr t) as [tk1 E1]; auto; try lia.
      { intros [-> [n ->]]. apply Hnl. split; [apply Hf; auto|eauto]. }
      destruct (LL_at_colon fuel (off + List.length w) r (done ++ [tk_next tk (t, off)])
                  (tk_next tk (t, off)) (instr_next instr t)) as [tk2 E2].
      exists (S fuel). repeat split; try (apply Hgn); try discriminate.
      * rewrite app_length in Hfu. destruct w; [congruence|cbn in *; lia].
      * intro K; destruct done; discriminate.
      * right. exists ERROR_ILLEGAL_CHAR, (LX (done ++ [tk_next tk (t, off)])), tk1, tk2,
          (instr_next instr t), (instr_next instr t),
          (print_error (Some buffer) ERROR_ILLEGAL_CHAR (Some (off + List.length w)%nat) file line_num).
        repeat split; auto.
  - destruct fuel as [|fuel]; [lia|]. cbn [List.length] in Hl.
    assert (done = []) as -> by (apply Hf; reflexivity).
    destruct (word_head _ _ _ Hw) as (W1 & W2 & W3 & _).
    assert (Hgn : good_tk (tk_next tk (TLabel name, off))) by (eapply word_good; eauto).
    assert (Hlex : lex off (w ++ ":"%char :: s) tk instr =
              Ret (Z.of_nat (List.length w), tk_next tk (TLabel name, off), instr)).
    { apply (lex_word off w (TLabel name)); auto. right. split; [eapply label_word_ident; eauto|].
      eexists; reflexivity. }
    destruct (IH fuel [tk_next tk (TLabel name, off)] (tk_next tk (TLabel name, off)) instr)
      as (fuel' & A & B & C & D); auto.
    + split; discriminate.
    + rewrite app_length in Hfu. cbn [List.length] in Hfu. lia.
    + exists fuel'. cbn [app] in *. repeat split; try (apply B); try (apply C); auto.
      rewrite (loop_label fuel off w s tk instr name); auto.
Qed.

Lemma reads_many : forall first off s toks first' off' s',
  Reads wr first off s toks first' off' s' ->
  forall fuel done tk instr,
  (first = true <-> done = []) -> (List.length done <= 8)%nat ->
  (9 <= List.length done + List.length toks)%nat ->
  (List.length s < fuel)%nat -> good_tk tk ->
  exists lx tk' instr', LL fuel off s done tk instr = Ret (ERROR_TOO_MANY_TOKENS, lx, tk', instr', []).
Proof.
  assert (FULL : forall fuel off w r done tk instr t, w <> [] ->
    ~ line_end (hdc w) -> ~ blank (hdc w) ->
    lex off (w ++ r) tk instr = Ret (Z.of_nat (List.length w), tk_next tk (t, off), instr_next instr t) ->
    List.length done = 8%nat ->
    exists lx tk' instr',
      LL (S fuel) off (w ++ r) done tk instr = Ret (ERROR_TOO_MANY_TOKENS, lx, tk', instr', [])).
  { intros fuel off w r done tk instr t Hw Hne Hnb Hlex Hl.
    assert (Hh : hdc (w ++ r) = hdc w) by (destruct w; [congruence|reflexivity]).
    do 3 eexists.
    rewrite LL_nonblank by (rewrite Hh; auto). cbn [lex_loop].
    rewrite (not_end_line (hdc (w ++ r))) by (rewrite Hh; auto). rewrite Hlex. cbn [bind].
    destruct (Z.ltb_spec (Z.of_nat (List.length w)) 0); [lia|].
    rewrite add_token_full by auto. cbn [bind]. reflexivity. }
  intros first off s toks first' off' s' H.
  induction H as [first off s|first off c s l first' off' s' Hb _ IH
                 |first off c t s l first' off' s' Hp HR IH
                 |first off w t s l first' off' s' Hw Hd HR IH|off w name s l first' off' s' Hw _ IH];
    intros fuel done tk instr Hf Hl Hm Hfu Hg.
  - cbn in Hm. lia.
  - cbn [List.length] in Hfu. rewrite LL_blank by auto. apply IH; auto. lia.
  - destruct fuel as [|fuel]; [cbn in Hfu; lia|]. cbn [List.length] in Hfu, Hm.
    destruct (punct_head c t Hp) as (P1 & P2 & _ & P4).
    assert (Hlex : lex off ([c] ++ s) tk instr =
              Ret (Z.of_nat (List.length [c]), tk_next tk (t, off), instr_next instr t)).
    { cbn [app]. rewrite (lex_punct off c t s tk instr Hp).
      destruct Hp as [E|[E|[E|[E|[E|E]]]]]; injection E as -> ->; reflexivity. }
    destruct (Nat.eq_dec (List.length done) 8) as [E8|N8].
    + change (c :: s) with ([c] ++ s). eapply FULL; eauto. discriminate.
    + assert (Hgn : good_tk (tk_next tk (t, off))) by (eapply punct_good; eauto).
      assert (Hs : forall r, s <> ":"%char :: r).
      { intros r ->. apply reads_colon in HR. destruct HR as (-> & _). cbn in Hm. lia. }
      change (c :: s) with ([c] ++ s).
      rewrite (loop_token fuel off [c] s done tk instr t); auto; try discriminate; try lia.
      cbn [List.length]. rewrite Nat.add_1_r. apply IH; auto.
      * split; [discriminate|intro K; destruct done; discriminate].
      * rewrite app_length. cbn [List.length]. lia.
      * rewrite app_length. cbn [List.length]. lia.
      * lia.
  - destruct fuel as [|fuel]; [lia|]. cbn [List.length] in Hm.
    destruct (word_head _ _ _ Hw) as (W1 & W2 & W3 & _).
    assert (Hgn : good_tk (tk_next tk (t, off))) by (eapply word_good; eauto).
    assert (Hlex : lex off (w ++ s) tk instr =
              Ret (Z.of_nat (List.length w), tk_next tk (t, off), instr_next instr t)).
    { apply lex_word; auto. tauto. }
    destruct (Nat.eq_dec (List.length done) 8) as [E8|N8]; [eapply FULL; eauto|].
    assert (Hs : forall r, s <> ":"%char :: r).
    { intros r ->. apply reads_colon in HR. destruct HR as (-> & _). cbn in Hm. lia. }
    rewrite (loop_token fuel off w s done tk instr t); auto; try lia.
    apply IH; auto.
    + split; [discriminate|intro K; destruct done; discriminate].
    + rewrite app_length. cbn [List.length]. lia.
    + rewrite app_length. cbn [List.length]. lia.
    + rewrite app_length in Hfu. destruct w; [congruence|cbn in Hfu; lia].
  - destruct fuel as [|fuel]; [lia|]. cbn [List.length] in Hm.
    assert (done = []) as -> by (apply Hf; reflexivity).
    destruct (word_head _ _ _ Hw) as (W1 & W2 & W3 & _).
    assert (Hgn : good_tk (tk_next tk (TLabel name, off))) by (eapply word_good; eauto).
    assert (Hlex : lex off (w ++ ":"%char :: s) tk instr =
              Ret (Z.of_nat (List.length w), tk_next tk (TLabel name, off), instr)).
    { apply (lex_word off w (TLabel name)); auto. right. split; [eapply label_word_ident; eauto|].
      eexists; reflexivity. }
    rewrite (loop_label fuel off w s tk instr name); auto.
    apply IH; auto.
    + split; discriminate.
    + cbn in *; lia.
    + rewrite app_length in Hfu. cbn [List.length] in Hfu. lia.
Qed.

(** at the end of the line *)
Lemma LL_end : forall fuel off s done tk instr, ends s -> (List.length done <= 8)%nat ->
  LL (S fuel) off s done tk instr = Ret (LEXER_SUCCESS, LX done, tk, instr, []).
Proof.
  intros fuel off s done tk instr He Hl.
  assert (line_end (hdc s)) as Hh by (destruct s; [cbn; unfold line_end; tauto|exact He]).
  rewrite LL_nonblank by (intro K; chars). cbn [lex_loop].
  apply end_line_spec in Hh. rewrite Hh. unfold lx_set_seq. cbn [LX lx_curr lx_seq].
  rewrite Nat2Z.id, fill_null_pad by auto. reflexivity.
Qed.

Lemma bad_head : forall lit s e k, bad_token lit s e k ->
  s <> [] /\ ~ blank (hdc s) /\ ~ line_end (hdc s) /\ (k <= List.length s)%nat.
Proof.
  intros lit s e k H.
  assert (ID : forall w r, ident w -> w ++ r <> [] /\ ~ blank (hdc (w ++ r)) /\ ~ line_end (hdc (w ++ r))).
  { intros w r (c & cs & -> & Hl & _). cbn [app hdc]. repeat split; [discriminate| |]; intro K; chars. }
  assert (NM : forall b ds n r, number b ds n ->
     prefix b ++ ds ++ r <> [] /\ ~ blank (hdc (prefix b ++ ds ++ r)) /\ ~ line_end (hdc (prefix b ++ ds ++ r))).
  { intros b ds n r Hn. destruct b; cbn [prefix app hdc].
    - repeat split; [discriminate| |]; intro K; chars.
    - repeat split; [discriminate| |]; intro K; chars.
    - inversion Hn; subst; match goal with H : digit_of Dec _ _ |- _ => inversion H; subst end;
        cbn [app hdc]; repeat split; try discriminate; intro K; chars. }
  destruct H as [c s Hb He Hs Ha|b s Hb Hd|b ds n c s Hn Hd Hdl|w n s Hn Hd Hv|w c s Hi Hl Hw Hd Hc Ha
                |w s Hi Hl|w c s Hf Hl Hw Hd Ha|w s Hf Hl Hd Hm|w s Hf Hl].
  - repeat split; auto; try discriminate. lia.
  - destruct b; try congruence; cbn [prefix app hdc List.length];
      (repeat split; [discriminate|intro K; chars|intro K; chars|lia]).
  - destruct (NM b ds n (c :: s) Hn) as (A & B & C). repeat split; auto.
    rewrite !app_length. lia.
  - destruct Hn as (b & ds & -> & Hn). rewrite <- app_assoc.
    destruct (NM b ds n s Hn) as (A & B & C). repeat split; auto. lia.
  - destruct (ID w (c :: s) Hi) as (A & B & C). repeat split; auto. rewrite app_length. lia.
  - destruct (ID w s Hi) as (A & B & C). repeat split; auto. lia.
  - cbn [app hdc List.length]. repeat split; [discriminate|intro K; chars|intro K; chars|].
    rewrite app_length. lia.
  - cbn [app hdc List.length]. repeat split; [discriminate|intro K; chars|intro K; chars|lia].
  - cbn [app hdc List.length]. repeat split; [discriminate|intro K; chars|intro K; chars|lia].
Qed.

Lemma error_code_neg : forall e, error_code_of e < 0.
Proof. intros []; reflexivity. Qed.

Lemma LL_bad : forall fuel off s done tk instr e k, bad_token wr s e k ->
  exists tk' i', LL (S fuel) off s done tk instr =
  (o <- print_error (Some buffer) (error_code_of e) (Some (off + k)%nat) file line_num ;;
   Ret (error_code_of e, LX done, tk', i', o)).
Proof.
  intros fuel off s done tk instr e k H.
  destruct (bad_head _ _ _ _ H) as (A & B & C & _).
  destruct (lex_bad off s tk instr e k H) as (tk' & E1 & E2).
  exists tk', instr. rewrite LL_nonblank by auto. cbn [lex_loop].
  rewrite (not_end_line _ C). rewrite E1. cbn [bind].
  pose proof (error_code_neg e). destruct (Z.ltb_spec (error_code_of e) 0); [|lia].
  cbn [LX lx_file lx_line_num]. rewrite E2. reflexivity.
Qed.

Lemma high_head : forall s, high_token s -> ~ blank (hdc s) /\ ~ line_end (hdc s).
Proof.
  intros s H. destruct H as [c s H|w c s (x & cs & -> & Hl & _) _ H|w c s _ _ H]; cbn [app hdc].
  - unfold high in H. split; intro K; chars.
  - split; intro K; chars.
  - split; intro K; chars.
Qed.

Lemma LL_high : forall fuel off s done tk instr, high_token s ->
  LL (S fuel) off s done tk instr = Undef UbCtype.
Proof.
  intros fuel off s done tk instr H. destruct (high_head s H) as [A B].
  rewrite LL_nonblank by auto. cbn [lex_loop]. rewrite (not_end_line _ B).
  rewrite lex_high by auto. reflexivity.
Qed.

(** ** lex_line *)
Lemma lex_line_LL : forall lexer0 tk0 instr0, List.length (lx_seq lexer0) = 8%nat ->
  lx_file lexer0 = file ->
  lex_line buffer lexer0 tk0 instr0 line_num =
  LL (S (List.length buffer)) 0 buffer [] init_token init_instruction.
Proof.
  intros lexer0 tk0 instr0 H Hf. unfold lex_line, LL.
  assert (mkLexer (lx_seq (reset_lexer lexer0)) (lx_curr (reset_lexer lexer0))
            (lx_error_tk (reset_lexer lexer0)) (Some buffer) line_num (lx_file (reset_lexer lexer0))
          = LX []) as ->.
  { unfold LX, reset_lexer. cbn [lx_seq lx_curr lx_error_tk lx_file]. rewrite Hf. f_equal.
    cbn [pad app List.length Nat.sub]. unfold pad. cbn [app List.length Nat.sub].
    destruct lexer0 as [seq ? ? ? ? ?]; cbn in *.
    do 8 (destruct seq as [|? seq]; [discriminate H|]).
    destruct seq; [|discriminate H]. reflexivity. }
  reflexivity.
Qed.

End Line.

(** ** Spec side: Lexes is Reads up to the end of the line *)
Lemma Lexes_Reads : forall lit first off s l, Lexes lit first off s l ->
  exists f' o' s', Reads lit first off s l f' o' s' /\ ends s'.
Proof.
  intros lit first off s l H. induction H.
  - exists first, off, s. split; auto. constructor.
  - destruct IHLexes as (f & o & s' & R & E). exists f, o, s'. split; auto. eapply Reads_blank; eauto.
  - destruct IHLexes as (f & o & s' & R & E). exists f, o, s'. split; auto. eapply Reads_punct; eauto.
  - destruct IHLexes as (f & o & s' & R & E). exists f, o, s'. split; auto. eapply Reads_word; eauto.
  - destruct IHLexes as (f & o & s' & R & E). exists f, o, s'. split; auto. eapply Reads_label; eauto.
Qed.

Lemma Reads_Lexes : forall lit first off s l f' o' s', Reads lit first off s l f' o' s' -> ends s' ->
  Lexes lit first off s l.
Proof.
  intros lit first off s l f' o' s' H. induction H; intro E.
  - constructor; auto.
  - eapply Lexes_blank; eauto.
  - eapply Lexes_punct; eauto.
  - destruct H0 as [D|(I & (s2 & ->) & N)].
    + eapply Lexes_word; eauto.
    + apply reads_colon in H1. destruct H1 as (-> & _ & _ & ->).
      exfalso. cbn in E. chars.
  - eapply Lexes_label; eauto.
Qed.

Lemma Reads_prefix : forall lit first off s l f' o' s', Reads lit first off s l f' o' s' ->
  forall n, (n <= List.length l)%nat ->
  exists f2 o2 s2, Reads lit first off s (firstn n l) f2 o2 s2.
Proof.
  intros lit first off s l f' o' s' H. induction H; intros n Hn.
  - destruct n; cbn; do 3 eexists; constructor.
  - destruct (IHReads n Hn) as (f2 & o2 & s2 & R). do 3 eexists. eapply Reads_blank; eauto.
  - destruct n as [|n]; cbn [firstn]; [do 3 eexists; constructor|]. cbn in Hn.
    destruct (IHReads n) as (f2 & o2 & s2 & R); [lia|]. do 3 eexists. eapply Reads_punct; eauto.
  - destruct n as [|n]; cbn [firstn]; [do 3 eexists; constructor|]. cbn in Hn.
    destruct (IHReads n) as (f2 & o2 & s2 & R); [lia|]. do 3 eexists. eapply Reads_word; eauto.
  - destruct n as [|n]; cbn [firstn]; [do 3 eexists; constructor|]. cbn in Hn.
    destruct (IHReads n) as (f2 & o2 & s2 & R); [lia|]. do 3 eexists. eapply Reads_label; eauto.
Qed.

Lemma Reads_split : forall lit first off s l f' o' s', Reads lit first off s l f' o' s' ->
  exists pre, s = pre ++ s' /\ o' = (off + List.length pre)%nat.
Proof.
  intros lit first off s l f' o' s' H. induction H.
  - exists []. cbn. split; auto.
  - destruct IHReads as (pre & -> & ->). exists (c :: pre). cbn. split; [auto|lia].
  - destruct IHReads as (pre & -> & ->). exists (c :: pre). cbn. split; [auto|lia].
  - destruct IHReads as (pre & -> & ->). exists (w ++ pre). rewrite app_length, <- app_assoc.
    split; [auto|lia].
  - destruct IHReads as (pre & -> & ->). exists (w ++ ":"%char :: pre).
    rewrite app_length. cbn [List.length]. rewrite <- app_assoc. split; [auto|lia].
Qed.

(** every text can be read until its end, an error or a high byte *)
Definition stuck (s : text) : Prop :=
  ends s \/ (exists e k, bad_token wr s e k) \/ high_token s.

Lemma reads_total_aux : forall n s first off, (List.length s <= n)%nat ->
  exists l f' o' s', Reads wr first off s l f' o' s' /\ stuck s'.
Proof.
  induction n as [|n IH]; intros s first off L.
  - destruct s; [|cbn in L; lia]. exists [], first, off, []. split; [constructor|left; exact I].
  - destruct s as [|c s]; [exists [], first, off, []; split; [constructor|left; exact I]|].
    cbn [List.length] in L.
    destruct (is_blank c) eqn:Eb.
    { apply is_blank_spec in Eb. destruct (IH s first (S off)) as (l & f' & o' & s' & R & S); [lia|].
      exists l, f', o', s'. split; auto. eapply Reads_blank; eauto. }
    destruct (end_line_lexing c) eqn:Ee.
    { apply end_line_spec in Ee. exists [], first, off, (c :: s). split; [constructor|left; exact Ee]. }
    assert (Hb : ~ blank c) by (rewrite <- is_blank_spec; congruence).
    assert (He : ~ line_end c) by (rewrite <- end_line_spec; congruence).
    destruct (token_cases c s Hb He) as [c' t r E P|w t r E Nw W D|e k B|Hh].
    + injection E as <- <-. destruct (IH s false (S off)) as (l & f' & o' & s' & R & S); [lia|].
      exists ((t, off) :: l), f', o', s'. split; auto. eapply Reads_punct; eauto.
    + assert (Lr : (List.length r <= n)%nat).
      { assert (List.length (c :: s) = List.length (w ++ r)) as K by (rewrite E; auto).
        rewrite app_length in K. cbn in K. destruct w; [congruence|cbn in K; lia]. }
      rewrite E. destruct D as [D|(I & (r2 & ->))].
      * destruct (IH r false (off + List.length w)%nat Lr) as (l & f' & o' & s' & R & S).
        exists ((t, off) :: l), f', o', s'. split; auto. eapply Reads_word; eauto.
      * assert (first = true /\ (exists n, t = TLabel n) \/ ~ (first = true /\ exists n, t = TLabel n))
          as [[-> [nm ->]]|N].
        { destruct first; [|right; intros [K _]; discriminate].
          destruct t; try (right; intros [_ [? K]]; discriminate). left; eauto. }
        -- cbn [List.length] in Lr.
           destruct (IH r2 false (off + List.length w + 1)%nat) as (l & f' & o' & s' & R & S); [lia|].
           exists ((TLabel nm, off) :: l), f', o', s'. split; auto. eapply Reads_label; eauto.
        -- destruct (IH (":"%char :: r2) false (off + List.length w)%nat Lr) as (l & f' & o' & s' & R & S).
           exists ((t, off) :: l), f', o', s'. split; auto. eapply Reads_word; eauto.
           right. repeat split; auto. eexists; reflexivity.
    + exists [], first, off, (c :: s). split; [constructor|right; left; eauto].
    + exists [], first, off, (c :: s). split; [constructor|right; right; auto].
Qed.

Lemma reads_total : forall s first off,
  exists l f' o' s', Reads wr first off s l f' o' s' /\ stuck s'.
Proof. intros. eapply reads_total_aux. reflexivity. Qed.

(** undefined behaviour: at most eight tokens and then a high byte in a token *)
Definition LexUndefined (line : text) : Prop :=
  exists toks f o s, Reads wr true 0 line toks f o s /\ (List.length toks <= 8)%nat /\ high_token s.

(** the four outcomes *)
Lemma lex_outcomes : forall line,
  (exists toks, Lexes wr true 0 line toks /\ (List.length toks <= 8)%nat) \/
  (exists e pos, LexFails wr line e pos) \/
  TooManyTokens wr line \/ LexUndefined line.
Proof.
  intro line. destruct (reads_total line true 0%nat) as (l & f & o & s & R & S).
  destruct (le_lt_dec (List.length l) 8) as [L|L].
  - destruct S as [E|[(e & k & B)|H]].
    + left. exists l. split; auto. eapply Reads_Lexes; eauto.
    + right; left. exists e, (o + k)%nat, l, f, o, s, k. auto.
    + right; right; right. exists l, f, o, s. auto.
  - right; right; left. destruct (Reads_prefix _ _ _ _ _ _ _ _ R 9 L) as (f2 & o2 & s2 & R2).
    exists (firstn 9 l), f2, o2, s2. split; auto. apply firstn_length_le. lia.
Qed.

Definition seq_of (toks : list (tok * nat)) : list Token := pad (run_toks init_token toks).
Definition instr_of (toks : list (tok * nat)) : Instruction := instr_run init_instruction toks.

Lemma init_good : good_tk init_token.
Proof. split; [reflexivity|cbn; lia]. Qed.

Lemma lex_line_ok : forall buffer file n lexer0 tk0 instr0 toks,
  List.length (lx_seq lexer0) = 8%nat -> lx_file lexer0 = file ->
  Lexes wr true 0 buffer toks -> (List.length toks <= 8)%nat ->
  lex_line buffer lexer0 tk0 instr0 n =
  Ret (LEXER_SUCCESS,
       mkLexer (seq_of toks) (Z.of_nat (List.length toks)) None (Some buffer) n file,
       last_tk init_token toks, instr_of toks, []).
Proof.
  intros buffer file n lexer0 tk0 instr0 toks H8 Hf HL Hl.
  rewrite (lex_line_LL buffer file) by auto.
  destruct (Lexes_Reads _ _ _ _ _ HL) as (f' & o' & s' & R & E).
  destruct (reads_LL buffer file n _ _ _ _ _ _ _ R (S (List.length buffer)) [] init_token
              init_instruction) as (fuel' & A & B & C & D); auto using init_good; [tauto|].
  cbn [app] in *.
  destruct fuel' as [|fuel']; [lia|].
  assert (List.length (run_toks init_token toks) <= 8)%nat as L8 by (rewrite run_toks_length; auto).
  destruct D as [D|(c & lx & tk1 & tk2 & i1 & i2 & m & Hc & D1 & D2)].
  - rewrite D, LL_end by auto. unfold LX. rewrite run_toks_length. reflexivity.
  - rewrite LL_end in D2 by auto. destruct m; cbn in D2; try discriminate. injection D2 as <-.
    discriminate Hc.
Qed.

Lemma visible_suffix : forall pre s, s <> [] -> ~ blank (hdc s) -> ~ line_end (hdc s) -> visible (pre ++ s).
Proof.
  intros pre [|c s] N B E; [congruence|]. exists c. split.
  - apply in_or_app; right; left; reflexivity.
  - cbn [hdc] in *. unfold trailing, line_end, blank in *. tauto.
Qed.


Lemma LexFails_pos : forall lit line e pos, LexFails lit line e pos ->
  (pos <= List.length line)%nat /\ visible line.
Proof.
  intros lit line e pos (toks & f & o & s & k & R & _ & B & ->).
  destruct (Reads_split _ _ _ _ _ _ _ _ R) as (pre & -> & ->).
  destruct (bad_head _ _ _ _ B) as (N & B1 & B2 & K). rewrite app_length.
  split; [lia|]. apply visible_suffix; auto.
Qed.

Lemma lex_line_fails : forall buffer file n lexer0 tk0 instr0 e pos,
  List.length (lx_seq lexer0) = 8%nat -> lx_file lexer0 = file ->
  LexFails wr buffer e pos ->
  exists lexer1 tk1 instr1 out,
  lex_line buffer lexer0 tk0 instr0 n = Ret (error_code_of e, lexer1, tk1, instr1, out) /\
  Report file n (message_of_error e) buffer (Some pos) out.
Proof.
  intros buffer file n lexer0 tk0 instr0 e pos H8 Hf HF.
  rewrite (lex_line_LL buffer file) by auto.
  destruct (LexFails_pos _ _ _ _ HF) as [Hp Hv].
  destruct HF as (toks & f & o & s & k & R & L & B & ->).
  destruct (reads_LL buffer file n _ _ _ _ _ _ _ R (S (List.length buffer)) [] init_token
              init_instruction) as (fuel' & A & _ & C & D); auto using init_good; [tauto|].
  cbn [app] in *. destruct fuel' as [|fuel']; [lia|].
  destruct (LL_bad buffer file n fuel' o s (run_toks init_token toks) (last_tk init_token toks)
              (instr_run init_instruction toks) e k B) as (tk' & i' & E).
  destruct (print_error_report buffer (error_code_of e) (Some (o + k)%nat) file n (message_of_error e))
    as (out & Eo & Ro); auto; [destruct e; reflexivity|].
  destruct D as [D|(c & lx & tk1 & tk2 & i1 & i2 & m & Hc & D1 & D2)].
  - rewrite D, E, Eo. cbn [bind]. do 4 eexists. split; [reflexivity|exact Ro].
  - rewrite E, Eo in D2. cbn [bind] in D2. destruct m as [om| |]; cbn [bind] in D1, D2; try discriminate.
    injection D2 as <- <- <- <- <-. rewrite D1. do 4 eexists. split; [reflexivity|exact Ro].
Qed.

Lemma lex_line_many : forall buffer file n lexer0 tk0 instr0,
  List.length (lx_seq lexer0) = 8%nat -> lx_file lexer0 = file ->
  TooManyTokens wr buffer ->
  exists lexer1 tk1 instr1,
  lex_line buffer lexer0 tk0 instr0 n = Ret (ERROR_TOO_MANY_TOKENS, lexer1, tk1, instr1, []).
Proof.
  intros buffer file n lexer0 tk0 instr0 H8 Hf (toks & f & o & s & R & L).
  rewrite (lex_line_LL buffer file) by auto.
  eapply (reads_many buffer file n); eauto using init_good; try tauto; cbn; lia.
Qed.

Lemma lex_line_undef : forall buffer file n lexer0 tk0 instr0,
  List.length (lx_seq lexer0) = 8%nat -> lx_file lexer0 = file ->
  LexUndefined buffer ->
  lex_line buffer lexer0 tk0 instr0 n = Undef UbCtype.
Proof.
  intros buffer file n lexer0 tk0 instr0 H8 Hf (toks & f & o & s & R & L & H).
  rewrite (lex_line_LL buffer file) by auto.
  destruct (reads_LL buffer file n _ _ _ _ _ _ _ R (S (List.length buffer)) [] init_token
              init_instruction) as (fuel' & A & _ & C & D); auto using init_good; [tauto|].
  cbn [app] in *. destruct fuel' as [|fuel']; [lia|].
  rewrite (LL_high buffer file n fuel' o s) in D by auto.
  destruct D as [D|(c & lx & tk1 & tk2 & i1 & i2 & m & Hc & D1 & D2)]; auto.
  rewrite D1. destruct m as [a|u|]; cbn [bind] in *; try discriminate; exact (eq_sym D2) || (injection D2 as <-; reflexivity).
Qed.
