(** Proof_Chars.v -- character classes of the model against those of Spec_Text. *)
From Verif Require Import Base Proof_Base Model_Opcode Model_Error Model_Lexer Spec_Isa Spec_Text.

Lemma code_eq_iff : forall c d, c = d <-> code c = code d.
Proof. intros; split; [congruence|apply code_inj]. Qed.

(* turn equalities with character constants into equalities of codes *)
Ltac char_codes :=
  repeat match goal with
  | |- context [code ?c] =>
      match c with
      | Ascii _ _ _ _ _ _ _ _ => let v := eval vm_compute in (code c) in change (code c) with v
      | chr _ => let v := eval vm_compute in (code c) in change (code c) with v
      | ch_nul => change (code ch_nul) with 0
      | ch_tab => change (code ch_tab) with 9
      | ch_nl => change (code ch_nl) with 10
      | ch_cr => change (code ch_cr) with 13
      | ch_sp => change (code ch_sp) with 32
      end
  | H : context [code ?c] |- _ =>
      match c with
      | Ascii _ _ _ _ _ _ _ _ => let v := eval vm_compute in (code c) in change (code c) with v in H
      | chr _ => let v := eval vm_compute in (code c) in change (code c) with v in H
      | ch_nul => change (code ch_nul) with 0 in H
      | ch_tab => change (code ch_tab) with 9 in H
      | ch_nl => change (code ch_nl) with 10 in H
      | ch_cr => change (code ch_cr) with 13 in H
      | ch_sp => change (code ch_sp) with 32 in H
      end
  end.

Lemma is_blank_spec : forall c, is_blank c = true <-> blank c.
Proof.
  intro c. unfold is_blank, blank. rewrite orb_true_iff, !Ascii.eqb_eq. tauto.
Qed.

Lemma end_line_spec : forall c, end_line_lexing c = true <-> line_end c.
Proof.
  intro c. unfold end_line_lexing, line_end.
  rewrite !orb_true_iff, !Ascii.eqb_eq, schar_eof, Z.eqb_eq, (code_eq_iff c (chr 255)).
  char_codes. tauto.
Qed.

Lemma end_token_spec : forall c, is_end_of_token c = true <-> delimiter c.
Proof.
  intro c. unfold is_end_of_token, delimiter, line_end, blank.
  rewrite !orb_true_iff, !Ascii.eqb_eq, schar_eof, Z.eqb_eq, (code_eq_iff c (chr 255)).
  char_codes. tauto.
Qed.

Lemma isalpha_ascii : forall c, code c < 128 ->
  exists b, isalpha c = Ret b /\ (b = true <-> letter c).
Proof.
  intros c H. unfold isalpha, ctype_ok. rewrite schar_small by lia.
  pose proof (code_range c). destruct (Z.leb_spec 0 (code c)); [|lia]. cbn [orb].
  eexists; split; [reflexivity|]. unfold is_upper, is_lower, letter.
  rewrite orb_true_iff, !in_range_spec. tauto.
Qed.

Lemma isalpha_letter : forall c, letter c -> isalpha c = Ret true.
Proof.
  intros c H. assert (code c < 128) by (unfold letter in H; lia).
  destruct (isalpha_ascii c H0) as (b & E & K). rewrite E. f_equal. tauto.
Qed.

Lemma isalpha_not : forall c, code c < 128 -> ~ letter c -> isalpha c = Ret false.
Proof.
  intros c H N. destruct (isalpha_ascii c H) as (b & E & K). rewrite E.
  destruct b; [exfalso; tauto|reflexivity].
Qed.

Lemma isalpha_undef : forall c, 128 <= code c < 255 -> isalpha c = Undef UbCtype.
Proof.
  intros c H. unfold isalpha, ctype_ok. rewrite schar_eof. unfold schar.
  destruct (Z.ltb_spec (code c) 128); [lia|]. destruct (Z.leb_spec 0 (code c - 256)); [lia|].
  destruct (Z.eqb_spec (code c) 255); [lia|]. reflexivity.
Qed.

Lemma valid_ascii : forall c, code c < 128 ->
  exists b, is_valid_token_char c = Ret b /\ (b = true <-> word_char c).
Proof.
  intros c H. unfold is_valid_token_char, isalnum, ctype_ok. rewrite schar_small by lia.
  pose proof (code_range c). destruct (Z.leb_spec 0 (code c)); [|lia]. cbn [orb bind].
  eexists; split; [reflexivity|]. unfold is_upper, is_lower, is_digit, word_char, letter, digit.
  rewrite !orb_true_iff, !in_range_spec, Ascii.eqb_eq. tauto.
Qed.

Lemma word_char_ascii : forall c, word_char c -> code c < 128.
Proof.
  intros c [H|[H|H]]; [unfold letter in H; lia|unfold digit in H; lia|subst; vm_compute; reflexivity].
Qed.

Lemma valid_yes : forall c, word_char c -> is_valid_token_char c = Ret true.
Proof.
  intros c H. destruct (valid_ascii c (word_char_ascii c H)) as (b & E & K). rewrite E.
  f_equal. tauto.
Qed.

Lemma valid_not : forall c, code c < 128 -> ~ word_char c -> is_valid_token_char c = Ret false.
Proof.
  intros c H N. destruct (valid_ascii c H) as (b & E & K). rewrite E.
  destruct b; [exfalso; tauto|reflexivity].
Qed.

Lemma valid_undef : forall c, 128 <= code c < 255 -> is_valid_token_char c = Undef UbCtype.
Proof.
  intros c H. unfold is_valid_token_char, isalnum, ctype_ok. rewrite schar_eof. unfold schar.
  destruct (Z.ltb_spec (code c) 128); [lia|]. destruct (Z.leb_spec 0 (code c - 256)); [lia|].
  destruct (Z.eqb_spec (code c) 255); [lia|]. reflexivity.
Qed.

Lemma letter_word_char : forall c, letter c -> word_char c.
Proof. intros; left; auto. Qed.

(* solve goals about character classes by arithmetic on codes *)
Ltac chars :=
  unfold word_char, letter, digit, delimiter, line_end, blank in *;
  rewrite ?code_eq_iff in *;
  repeat match goal with H : context [?a = ?b] |- _ =>
    match type of a with ascii => rewrite (code_eq_iff a b) in H end end;
  char_codes; lia.

Lemma word_char_not_delim : forall c, word_char c -> ~ delimiter c.
Proof. intros c H K. chars. Qed.

Lemma word_char_not_colon : forall c, word_char c -> c <> ":"%char.
Proof. intros c H K. subst. chars. Qed.

Lemma not_end_token : forall c, ~ delimiter c -> is_end_of_token c = false.
Proof.
  intros c H. destruct (is_end_of_token c) eqn:E; auto. apply end_token_spec in E. tauto.
Qed.

Lemma not_end_line : forall c, ~ line_end c -> end_line_lexing c = false.
Proof.
  intros c H. destruct (end_line_lexing c) eqn:E; auto. apply end_line_spec in E. tauto.
Qed.

Lemma toupper_upper : forall c, toupper c = upper c.
Proof. reflexivity. Qed.

Lemma upper_letter : forall c, letter c -> letter (upper c).
Proof.
  intros c H. unfold upper. pose proof (code_range c).
  destruct ((97 <=? code c) && (code c <=? 122)) eqn:E; auto.
  apply andb_true_iff in E. destruct E as [E1 E2]. apply Z.leb_le in E1, E2.
  unfold letter. rewrite code_chr by lia. lia.
Qed.

Lemma upper_idem : forall c, upper (upper c) = upper c.
Proof.
  intro c. unfold upper. pose proof (code_range c).
  destruct ((97 <=? code c) && (code c <=? 122)) eqn:E.
  - apply andb_true_iff in E. destruct E as [E1 E2]. apply Z.leb_le in E1, E2.
    rewrite code_chr by lia.
    destruct (Z.leb_spec 97 (code c - 32)), (Z.leb_spec (code c - 32) 122); cbn; auto; lia.
  - rewrite E. reflexivity.
Qed.

(** digits *)
Lemma digit_range : forall b c d, digit_of b c d -> 0 <= d < radix b.
Proof. intros b c d H. inversion H; subst; cbn; lia. Qed.

Lemma digit_fun : forall b c d d', digit_of b c d -> digit_of b c d' -> d = d'.
Proof. intros b c d d' H K. inversion H; subst; inversion K; subst; lia. Qed.

Definition converter (b : base) : ascii -> Z :=
  match b with Hex => hex_digit_to_int | Bin => bin_digit_to_int | Dec => dec_digit_to_int end.

Lemma converter_digit : forall b c d, digit_of b c d -> converter b c = d.
Proof.
  intros b c d H. pose proof (code_range c).
  assert (code c < 128) as Hs by (inversion H; lia).
  destruct H; unfold converter, hex_digit_to_int, dec_digit_to_int, bin_digit_to_int;
    rewrite ?schar_small by lia.
  - destruct (in_range 48 (code c) 57) eqn:E; auto. apply in_range_false in E. lia.
  - rewrite !eqb_code. char_codes.
    destruct (Z.eqb_spec (code c) 48); [lia|]. destruct (Z.eqb_spec (code c) 49); lia.
  - destruct (in_range 65 (code c) 70) eqn:E; [apply in_range_spec in E; lia|].
    destruct (in_range 97 (code c) 102) eqn:E'; [apply in_range_spec in E'; lia|].
    destruct (in_range 48 (code c) 57) eqn:E2; auto. apply in_range_false in E2. lia.
  - destruct (in_range 65 (code c) 70) eqn:E; [lia|]. apply in_range_false in E. lia.
  - destruct (in_range 65 (code c) 70) eqn:E; [apply in_range_spec in E; lia|].
    destruct (in_range 97 (code c) 102) eqn:E'; [lia|]. apply in_range_false in E'. lia.
Qed.

Lemma converter_not : forall b c, (forall d, ~ digit_of b c d) -> converter b c = ERROR_ILLEGAL_CHAR.
Proof.
  intros b c H. pose proof (code_range c) as R. pose proof (schar_range c).
  unfold schar in *.
  destruct b; unfold converter, hex_digit_to_int, dec_digit_to_int, bin_digit_to_int, schar.
  - destruct (in_range 65 _ 70) eqn:E.
    { apply in_range_spec in E. destruct (Z.ltb_spec (code c) 128); [|lia].
      exfalso. apply (H (code c - 55)). constructor. lia. }
    destruct (in_range 97 _ 102) eqn:E'.
    { apply in_range_spec in E'. destruct (Z.ltb_spec (code c) 128); [|lia].
      exfalso. apply (H (code c - 87)). constructor 5. lia. }
    destruct (in_range 48 _ 57) eqn:E2; auto.
    { apply in_range_spec in E2. destruct (Z.ltb_spec (code c) 128); [|lia].
      exfalso. apply (H (code c - 48)). constructor 3. lia. }
  - rewrite !eqb_code. char_codes.
    destruct (Z.eqb_spec (code c) 48); [exfalso; apply (H (code c - 48)); constructor; lia|].
    destruct (Z.eqb_spec (code c) 49); [exfalso; apply (H (code c - 48)); constructor; lia|].
    reflexivity.
  - destruct (in_range 48 _ 57) eqn:E2; auto.
    { apply in_range_spec in E2. destruct (Z.ltb_spec (code c) 128); [|lia].
      exfalso. apply (H (code c - 48)). constructor. lia. }
Qed.

Lemma digit_dec_ex : forall b c, (exists d, digit_of b c d) \/ (forall d, ~ digit_of b c d).
Proof.
  intros b c. pose proof (code_range c).
  assert (K1 : 48 <= code c <= 57 \/ ~ 48 <= code c <= 57) by lia.
  assert (K2 : 65 <= code c <= 70 \/ ~ 65 <= code c <= 70) by lia.
  assert (K3 : 97 <= code c <= 102 \/ ~ 97 <= code c <= 102) by lia.
  assert (K4 : 48 <= code c <= 49 \/ ~ 48 <= code c <= 49) by lia.
  destruct b.
  - destruct K1; [left; eexists; constructor 3; eauto|].
    destruct K2; [left; eexists; constructor 4; eauto|].
    destruct K3; [left; eexists; constructor 5; eauto|].
    right; intros d D; inversion D; tauto.
  - destruct K4; [left; eexists; constructor; eauto|right; intros d D; inversion D; tauto].
  - destruct K1; [left; eexists; constructor; eauto|right; intros d D; inversion D; tauto].
Qed.

Lemma digit_word_char : forall b c d, digit_of b c d -> word_char c.
Proof. intros b c d H. inversion H; subst; unfold word_char, letter, digit; lia. Qed.

Lemma number_nonempty : forall b ds n, number b ds n -> ds <> [].
Proof. intros b ds n H. inversion H; discriminate. Qed.

Lemma number_nonneg : forall b ds n, number b ds n -> 0 <= n.
Proof.
  intros b ds n H. induction H.
  - apply digit_range in H. lia.
  - apply digit_range in H. assert (0 <= radix b ^ Z.of_nat (List.length ds)).
    { apply Z.pow_nonneg. destruct b; cbn; lia. } nia.
Qed.

Lemma number_fun : forall b ds n n', number b ds n -> number b ds n' -> n = n'.
Proof.
  intros b ds n n' H. revert n'. induction H; intros n' K; inversion K; subst.
  - eapply digit_fun; eauto.
  - match goal with H : number _ [] _ |- _ => inversion H end.
  - inversion H0.
  - f_equal; [f_equal; eapply digit_fun; eauto|auto].
Qed.

Lemma number_chars : forall b ds n, number b ds n -> Forall word_char ds.
Proof. intros b ds n H. induction H; constructor; eauto using digit_word_char. Qed.

Lemma number_total : forall b ds, ds <> [] -> Forall (fun c => exists d, digit_of b c d) ds ->
  exists n, number b ds n.
Proof.
  intros b ds N F. induction F as [|c ds [d D] F IH]; [congruence|].
  destruct ds as [|c' ds].
  - exists d. constructor; auto.
  - destruct IH as [n Hn]; [discriminate|]. eexists. constructor 2; eauto.
Qed.

(** decision procedures, for concrete texts *)
Definition letterb (c : ascii) : bool := is_upper c || is_lower c.
Definition word_charb (c : ascii) : bool := letterb c || is_digit c || Ascii.eqb c "_"%char.
Definition identb (w : text) : bool :=
  match w with [] => false | c :: cs => letterb c && forallb word_charb cs end.

Lemma letterb_ok : forall c, letterb c = true -> letter c.
Proof.
  intros c H. unfold letterb, is_upper, is_lower in H. apply orb_true_iff in H.
  rewrite !in_range_spec in H. exact H.
Qed.

Lemma word_charb_ok : forall c, word_charb c = true -> word_char c.
Proof.
  intros c H. unfold word_charb in H. rewrite !orb_true_iff in H.
  destruct H as [[H|H]|H].
  - left. apply letterb_ok, H.
  - right; left. unfold is_digit in H. apply in_range_spec in H. exact H.
  - right; right. apply Ascii.eqb_eq, H.
Qed.

Lemma identb_ok : forall w, identb w = true -> ident w.
Proof.
  intros [|c cs] H; [discriminate|]. cbn in H. apply andb_true_iff in H. destruct H as [H1 H2].
  exists c, cs. split; [reflexivity|]. split; [apply letterb_ok, H1|].
  apply Forall_forall. intros x Hx. rewrite forallb_forall in H2. apply word_charb_ok, H2, Hx.
Qed.

Fixpoint eval_digits (b : base) (ds : text) : Z :=
  match ds with
  | [] => 0
  | c :: ds' => converter b c * radix b ^ Z.of_nat (List.length ds') + eval_digits b ds'
  end.

Lemma number_eval : forall b ds n, ds <> [] ->
  forallb (fun c => negb (converter b c =? ERROR_ILLEGAL_CHAR)) ds = true ->
  eval_digits b ds = n -> number b ds n.
Proof.
  intros b ds n N H <-. induction ds as [|c ds IH]; [congruence|].
  cbn [forallb] in H. apply andb_true_iff in H. destruct H as [H1 H2].
  assert (D : digit_of b c (converter b c)).
  { destruct (digit_dec_ex b c) as [[d D]|D].
    - rewrite (converter_digit b c d D). exact D.
    - rewrite (converter_not b c D) in H1. discriminate H1. }
  cbn [eval_digits]. destruct ds as [|c' ds].
  - cbn [eval_digits List.length Z.of_nat]. rewrite Z.pow_0_r, Z.mul_1_r, Z.add_0_r.
    constructor. exact D.
  - constructor; auto. apply IH; [discriminate|auto].
Qed.
