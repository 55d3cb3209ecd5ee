(** Proof_Same.v -- lines that are alike have the same tokens, or fail in the same way. *)
From Verif Require Import Base Proof_Base Model_Opcode Model_Lexer Model_Main Spec_Isa Spec_Text Spec_Alike Proof_Chars Proof_Lex1 Proof_Lex2
  Proof_Fun Proof_Core Proof_Sim2 Proof_Run Proof_Source Proof_Alike.

(** ** Letter case *)
Lemma upper_cases : forall c c', upper c = upper c' -> c = c' \/ letter c /\ letter c'.
Proof.
  intros c c' H. unfold upper, letter in *.
  pose proof (code_range c). pose proof (code_range c').
  destruct ((97 <=? code c) && (code c <=? 122)) eqn:E; destruct ((97 <=? code c') && (code c' <=? 122)) eqn:E';
    rewrite ?andb_true_iff, ?andb_false_iff, ?Z.leb_le, ?Z.leb_gt in *; auto; right;
    apply code_eq_iff in H; rewrite ?code_chr in H by lia; lia.
Qed.

Ltac upcase H := let K := fresh in let K' := fresh in destruct (upper_cases _ _ H) as [<- | [K K']]; [auto|].

Lemma up_sym : forall c c', upper c = upper c' -> upper c' = upper c.
Proof. auto. Qed.
Lemma up_letter : forall c c', upper c = upper c' -> letter c -> letter c'.
Proof. intros c c' H L. upcase H. auto. Qed.
Lemma up_word_char : forall c c', upper c = upper c' -> word_char c -> word_char c'.
Proof. intros c c' H L. upcase H. left; auto. Qed.
Lemma letter_plain : forall c, letter c -> ~ delimiter c /\ (forall t, ~ punct c t) /\ c <> ":"%char /\ c <> "."%char /\ c <> "$"%char /\ c <> "%"%char.
Proof.
  intros c L. split; [apply word_char_not_delim; left; exact L|]. split.
  - intros t [P|[P|[P|[P|[P|P]]]]]; injection P as -> _; chars.
  - repeat split; intros ->; chars.
Qed.
Lemma up_delimiter : forall c c', upper c = upper c' -> delimiter c -> delimiter c'.
Proof. intros c c' H D. upcase H. destruct (letter_plain c); tauto. Qed.
Lemma up_same : forall c c', upper c = upper c' -> ~ letter c -> c = c'.
Proof. intros c c' H D. destruct (upper_cases _ _ H) as [<- | [K K']]; tauto. Qed.
Lemma up_digit : forall b c c' d, upper c = upper c' -> digit_of b c d -> digit_of b c' d.
Proof.
  intros b c c' d H D. destruct (upper_cases _ _ H) as [<- | [K K']]; [exact D|].
  unfold upper in H. unfold letter in *. pose proof (code_range c). pose proof (code_range c').
  destruct ((97 <=? code c) && (code c <=? 122)) eqn:E; destruct ((97 <=? code c') && (code c' <=? 122)) eqn:E';
    rewrite ?andb_true_iff, ?andb_false_iff, ?Z.leb_le, ?Z.leb_gt in *; 
    apply code_eq_iff in H; rewrite ?code_chr in H by lia.
  - assert (c = c') as <- by (apply code_inj; lia). exact D.
  - inversion D; subst; try lia. replace (code c - 87) with (code c' - 55) by lia. apply digit_hex_upper. lia.
  - inversion D; subst; try lia. replace (code c - 55) with (code c' - 87) by lia. apply digit_hex_lower. lia.
  - assert (c = c') as <- by (apply code_inj; lia). exact D.
Qed.
Lemma up_no_digit : forall b c c', upper c = upper c' -> (forall d, ~ digit_of b c d) -> forall d, ~ digit_of b c' d.
Proof. intros b c c' H N d D. apply (N d). eapply up_digit; [symmetry; exact H|exact D]. Qed.
Lemma letter_small : forall c, letter c -> code c < 128.
Proof. intros c [L|L]; lia. Qed.
Lemma up_small : forall c c', upper c = upper c' -> code c < 128 -> code c' < 128.
Proof. intros c c' H L. upcase H. apply letter_small; auto. Qed.
Lemma up_high : forall c c', upper c = upper c' -> high c -> high c'.
Proof. intros c c' H L. destruct (upper_cases _ _ H) as [<- |[K K']]; [exact L|]. apply letter_small in K. unfold high in *. lia. Qed.

(** ** Texts equal up to case *)
Definition same_up (w w' : text) : Prop := map upper w = map upper w'.
Lemma same_up_length : forall w w', same_up w w' -> List.length w = List.length w'.
Proof. intros w w' H. unfold same_up in H. rewrite <- (map_length upper w), H. apply map_length. Qed.

Lemma same_up_forall : forall (P : ascii -> Prop), (forall c c', upper c = upper c' -> P c -> P c') ->
  forall w w', same_up w w' -> Forall P w -> Forall P w'.
Proof.
  intros P HP w. induction w as [|c w IH]; intros [|c' w'] H F; try discriminate; [constructor|].
  unfold same_up in H. cbn in H. injection H as H1 H2. inversion F; subst. constructor; eauto.
Qed.

Lemma up_ident : forall w w', same_up w w' -> ident w -> ident w'.
Proof.
  intros w w' H (c & cs & -> & L & F). destruct w' as [|c' cs']; [discriminate|]. unfold same_up in H. cbn in H. injection H as H1 H2.
  exists c', cs'. split; [reflexivity|]. split; [eapply up_letter; eauto|]. eapply same_up_forall; eauto using up_word_char.
Qed.

Lemma up_number : forall b ds n, number b ds n -> forall ds', same_up ds ds' -> number b ds' n.
Proof.
  intros b ds n H. induction H as [c d D|c d ds n D H IH]; intros ds' E; unfold same_up in E.
  - destruct ds' as [|c' [|]]; try discriminate. cbn in E. injection E as E. constructor. eapply up_digit; eauto.
  - destruct ds' as [|c' ds']; try discriminate. cbn in E. injection E as E1 E2.
    rewrite (same_up_length ds ds') by exact E2. constructor; [eapply up_digit; eauto|apply IH; exact E2].
Qed.

Lemma same_up_prefix : forall b ds w', same_up (prefix b ++ ds) w' -> exists ds', w' = prefix b ++ ds' /\ same_up ds ds'.
Proof.
  intros b ds w' H. destruct b; cbn [prefix app] in *; [| |exists w'; auto];
  (destruct w' as [|c' w']; [discriminate|]; unfold same_up in H; cbn [map] in H; injection H as H1 H2;
   exists w'; split; [|exact H2]; f_equal; symmetry; apply up_same; [exact H1|intro K; chars]).
Qed.

Lemma up_numeral : forall w w' n, same_up w w' -> numeral w n -> numeral w' n.
Proof.
  intros w w' n H (b & ds & -> & N). destruct (same_up_prefix _ _ _ H) as (ds' & -> & E). exists b, ds'. split; auto.
  eapply up_number; eauto.
Qed.

Lemma up_ident_means : forall w w' t, same_up w w' -> ident_means w t -> ident_means w' t.
Proof.
  intros w w' t H M. unfold same_up in H. destruct M; try (rewrite H in *; constructor; auto; fail). Qed.
Lemma up_directive_means : forall w w' d, same_up w w' -> directive_means w d -> directive_means w' d.
Proof. intros w w' t H M. unfold same_up in H. destruct M; rewrite H in *; constructor; auto. Qed.

Lemma up_word : forall lit w w' t, same_up w w' -> word lit w t -> word lit w' t.
Proof.
  intros lit w w' t H W. destruct W.
  - apply word_ident; [eapply up_ident; eauto|rewrite <- (same_up_length _ _ H); auto|eapply up_ident_means; eauto].
  - eapply word_numeral; [eapply up_numeral; eauto|auto].
  - apply word_directive. eapply up_directive_means; eauto.
Qed.

(** ** Words in lines that are alike *)
Definition wordy (c : ascii) : Prop := ~ delimiter c /\ forall t, ~ punct c t.

Lemma word_char_wordy : forall c, word_char c -> wordy c.
Proof.
  intros c H. split; [apply word_char_not_delim, H|]. intros t [P|[P|[P|[P|[P|P]]]]]; injection P as -> _; destruct H as [H|[H|H]]; chars.
Qed.

Lemma wordy_word : forall lit w t, word lit w t -> Forall wordy w.
Proof.
  assert (K : forall c, c = "$"%char \/ c = "%"%char \/ c = "."%char -> wordy c).
  { intros c H. split.
    - intro D. destruct H as [-> |[-> | ->]]; chars.
    - intros t [P|[P|[P|[P|[P|P]]]]]; injection P as -> _; destruct H as [H|[H|H]]; discriminate. }
  intros lit w t H. destruct H as [w t I _ _|w n v (b & ds & -> & Hn) _|w d Hd].
  - eapply Forall_impl; [|apply ident_word_chars, I]. apply word_char_wordy.
  - apply number_chars in Hn. assert (F : Forall wordy ds) by (eapply Forall_impl; [|exact Hn]; apply word_char_wordy).
    destruct b; cbn [prefix app]; auto.
  - destruct (directive_shape _ _ Hd) as (cs & -> & F & _). constructor; auto.
    eapply Forall_impl; [|exact F]. intros. apply word_char_wordy, letter_word_char; auto.
Qed.

Lemma blank_not_wordy : forall c, blank c -> ~ wordy c.
Proof. intros c B [D _]. apply D. left. exact B. Qed.
Lemma end_not_wordy : forall c, line_end c -> ~ wordy c.
Proof. intros c B [D _]. apply D. right. left. exact B. Qed.
Lemma bracket_delimiter : forall c, c = "("%char \/ c = ")"%char \/ c = ","%char -> delimiter c.
Proof. intros c H. unfold delimiter. tauto. Qed.

Lemma bracket_punct : forall c, c = "("%char \/ c = ")"%char \/ c = ","%char -> exists t, punct c t.
Proof. intros c [-> |[-> | ->]]; eexists; unfold punct; eauto 8. Qed.

(** the first character of [b ++ s] *)
Lemma blanks_head : forall b s c r, blanks b -> b ++ s = c :: r -> blank c /\ (exists b1, b = c :: b1 /\ r = b1 ++ s) \/ b = [] /\ s = c :: r.
Proof.
  intros [|d b] s c r H E; cbn in E; [right; auto|]. injection E as -> E. left. inversion H; subst. split; auto. exists b. auto.
Qed.

(** a character that is no delimiter stays, up to case *)
Lemma alike_head : forall s s', alike s s' -> forall c r, s = c :: r -> ~ delimiter c ->
  exists c' r', s' = c' :: r' /\ upper c = upper c' /\ (alike r r' \/ (exists t, punct c t) /\ alike_line r r').
Proof.
  intros s s' H c r E N.
  assert (NB : ~ blank c) by (intro K; apply N; left; exact K).
  assert (NE : ~ line_end c) by (intro K; apply N; right; left; exact K).
  destruct H as [b b' s s' B B' En En'|c0 c' s s' U H|b b' s s' B B' Nb Nb' H|b b' c0 g g' s s' B B' G G' D H|c0 t b b' s s' P B B' H].
  - destruct (blanks_head _ _ _ _ B E) as [[K _]|[-> ->]]; [contradiction|]. cbn in En. contradiction.
  - injection E as -> ->. exists c', s'. auto.
  - destruct b as [|d b]; [congruence|]. cbn in E. injection E as -> _. inversion B; subst. contradiction.
  - destruct (blanks_head _ _ _ _ B E) as [[K _]|[-> X]]; [contradiction|]. injection X as -> <-. destruct N. apply bracket_delimiter, D.
  - injection E as -> <-. exists c, (b' ++ s'). split; [reflexivity|]. split; [reflexivity|]. right. split; [eauto|].
    exists b, b', s, s'. auto.
Qed.

Lemma alike_words : forall w s s', Forall wordy w -> alike (w ++ s) s' -> exists w' s1, s' = w' ++ s1 /\ same_up w w' /\ alike s s1.
Proof.
  induction w as [|c w IH]; intros s s' F H.
  - exists [], s'. split; [reflexivity|]. split; [reflexivity|exact H].
  - inversion F as [|? ? [Nd Np] F']; subst. destruct (alike_head _ _ H c (w ++ s) eq_refl Nd) as (c' & r' & -> & U & [A|[(t & P) _]]); [|destruct (Np _ P)].
    destruct (IH _ _ F' A) as (w' & s1 & -> & S & A'). exists (c' :: w'), s1. split; [reflexivity|]. split; [|exact A'].
    unfold same_up in *. cbn. congruence.
Qed.

Lemma alike_delimited : forall s s', alike s s' -> delimited s -> delimited s'.
Proof.
  intros s s' H D. destruct H as [b b' s s' B B' En En'|c c' s s' U H|b b' s s' B B' Nb Nb' H|b b' c g g' s s' B B' G G' E H|c t b b' s s' P B B' H].
  - destruct b' as [|d b']; cbn [app].
    + destruct s' as [|c s']; cbn in *; auto. right. left. exact En'.
    + cbn. inversion B'; subst. left. auto.
  - cbn in *. eapply up_delimiter; eauto.
  - destruct b' as [|d b']; [congruence|]. cbn. inversion B'; subst. left. auto.
  - destruct b' as [|d b']; cbn.
    + apply bracket_delimiter, E.
    + inversion B'; subst. left. auto.
  - exact D.
Qed.

Lemma alike_colon : forall s s', alike (":"%char :: s) s' -> exists s1, s' = ":"%char :: s1 /\ alike s s1.
Proof.
  intros s s' H. destruct (alike_head _ _ H ":"%char s eq_refl) as (c' & r' & -> & U & [A|[(t & P) _]]).
  - intro K. chars.
  - exists r'. split; [f_equal; symmetry; apply up_same; [exact U|intro K; chars]|exact A].
  - exfalso. destruct P as [P|[P|[P|[P|[P|P]]]]]; discriminate.
Qed.

Lemma alike_alike_line : forall s s', alike s s' -> alike_line s s'.
Proof. intros s s' H. exists [], [], s, s'. repeat split; auto; constructor. Qed.

Lemma blanks_app : forall a b, blanks a -> blanks b -> blanks (a ++ b).
Proof. intros. apply Forall_app. auto. Qed.

(** leading blanks *)
Lemma line_skip : forall c s s', blank c -> alike_line (c :: s) s' -> alike_line s s'.
Proof.
  intros c s s' Bc (b & b' & t & t' & B & B' & E & -> & A).
  destruct (blanks_head _ _ _ _ B (eq_sym E)) as [[_ (b1 & -> & ->)]|[-> ->]].
  { exists b1, b', t, t'. inversion B; subst. auto. }
  inversion A as [e e' u u' C C' En En' X|d d' u u' U H X|e e' u u' C C' Ne Ne' H X|e e' d g g' u u' C C' G G' D H X|d tk e e' u u' P C C' H X]; subst.
  - destruct (blanks_head _ _ _ _ C X) as [[_ (b1 & -> & ->)]|[-> ->]].
    + exists b1, (b' ++ e'), u, u'. inversion C; subst. repeat split; auto using blanks_app. { rewrite app_assoc. reflexivity. }
      apply (alike_end [] []); auto; constructor.
    + exfalso. cbn in En. destruct Bc as [-> | ->]; chars.
  - exists [], (b' ++ [d']), s, u'. repeat split; auto.
    + apply blanks_app; auto. constructor; [|constructor]. rewrite <- (up_same c d'); auto. intro K. destruct Bc as [-> | ->]; chars.
    + rewrite <- app_assoc. reflexivity.
  - destruct (blanks_head _ _ _ _ C X) as [[_ (b1 & -> & ->)]|[-> ->]]; [|congruence].
    exists b1, (b' ++ e'), u, u'. inversion C; subst. repeat split; auto using blanks_app. rewrite app_assoc. reflexivity.
  - destruct (blanks_head _ _ _ _ C X) as [[_ (b1 & -> & ->)]|[-> Y]].
    + exists b1, (b' ++ e'), (d :: g ++ u), (d :: g' ++ u'). inversion C; subst. repeat split; auto using blanks_app. { rewrite app_assoc. reflexivity. }
      destruct (bracket_punct _ D) as (tk & P). eapply alike_after; eauto.
    + exfalso. injection Y as -> <-. destruct Bc as [-> | ->], D as [D|[D|D]]; discriminate.
  - exfalso. destruct P as [P|[P|[P|[P|[P|P]]]]]; injection P as -> _; destruct Bc; discriminate.
Qed.

(** at a character that is neither blank nor an end, the two lines meet *)
Lemma line_meet : forall c s s', ~ blank c -> ~ line_end c -> alike_line (c :: s) s' ->
  exists b' s1, s' = b' ++ s1 /\ blanks b' /\
    (alike (c :: s) s1 \/ exists t s2, punct c t /\ s1 = c :: s2 /\ alike_line s s2).
Proof.
  intros c s s' Nb Ne (b & b' & t & t' & B & B' & E & -> & A).
  destruct (blanks_head _ _ _ _ B (eq_sym E)) as [[K _]|[-> ->]]; [contradiction|]. cbn [app] in E. clear E B.
  exists b', t'. split; [reflexivity|]. split; [exact B'|]. left. exact A.
Qed.

(** a punctuation character *)
Lemma line_punct : forall c t s s', punct c t -> alike_line (c :: s) s' ->
  exists b' s1, s' = b' ++ c :: s1 /\ blanks b' /\ alike_line s s1.
Proof.
  intros c tk s s' P (b & b' & t & t' & B & B' & E & -> & A). destruct (punct_head _ _ P) as (Ne & Nb & _).
  destruct (blanks_head _ _ _ _ B (eq_sym E)) as [[K _]|[-> ->]]; [contradiction|]. cbn [app] in E. clear E B.
  assert (NL : ~ letter c) by (intro K; destruct (letter_plain c K) as (_ & Q & _); exact (Q _ P)).
  inversion A as [e e' u u' C C' En En' X|d d' u u' U H X|e e' u u' C C' Ne' Nn' H X|e e' d g g' u u' C C' G G' D H X|d tk' e e' u u' P' C C' H X]; subst.
  - destruct (blanks_head _ _ _ _ C X) as [[K _]|[-> ->]]; [contradiction|]. cbn in En. contradiction.
  - exists b', u'. rewrite (up_same _ _ U NL) at 1. split; [reflexivity|]. split; [exact B'|]. apply alike_alike_line, H.
  - destruct (blanks_head _ _ _ _ C X) as [[K _]|[-> ->]]; [contradiction|]. congruence.
  - destruct (blanks_head _ _ _ _ C X) as [[K _]|[-> Y]]; [contradiction|]. injection Y as -> <-.
    exists (b' ++ e'), (g' ++ u'). rewrite <- app_assoc. split; [reflexivity|]. split; [apply blanks_app; auto|]. exists g, g', u, u'. auto.
  - exists b', (e' ++ u'). split; [reflexivity|]. split; [exact B'|]. exists e, e', u, u'. auto.
Qed.

Lemma Reads_blanks : forall lit b first off s l f' o' s', blanks b -> Reads lit first (off + List.length b) s l f' o' s' ->
  Reads lit first off (b ++ s) l f' o' s'.
Proof.
  intros lit b. induction b as [|c b IH]; intros first off s l f' o' s' B H; cbn [app List.length] in *; [rewrite Nat.add_0_r in H; exact H|].
  inversion B; subst. apply Reads_blank; [assumption|]. apply IH; [assumption|]. rewrite Nat.add_succ_r in H. exact H.
Qed.

(** ** The same tokens *)
Lemma reads_alike : forall lit first off s l f' o' t, Reads lit first off s l f' o' t -> forall s' off2, alike_line s s' ->
  exists l2 o2 t', Reads lit first off2 s' l2 f' o2 t' /\ map fst l2 = map fst l /\ alike_line t t'.
Proof.
  intros lit first off s l f' o' t H.
  induction H as [first off s|first off c s l f' o' t B H IH|first off c tk s l f' o' t P H IH|first off w tk s l f' o' t W D H IH|off w n s l f' o' t W H IH];
    intros s' off2 A.
  - exists [], off2, s'. split; [constructor|]. auto.
  - apply IH. eapply line_skip; eauto.
  - destruct (line_punct _ _ _ _ P A) as (b' & s1 & -> & Bb & A').
    destruct (IH s1 (S (off2 + List.length b')) A') as (l2 & o2 & t' & R & E & At).
    exists ((tk, (off2 + List.length b')%nat) :: l2), o2, t'. split; [|split; [cbn; congruence|exact At]].
    apply Reads_blanks; [exact Bb|]. apply Reads_punct; auto.
  - destruct (word_head _ _ _ W) as (Nw & Hd & Hb & _). destruct w as [|c w]; [congruence|]. cbn [hdc] in *.
    destruct (line_meet c (w ++ s) s' Hb Hd A) as (b' & s1 & -> & Bb & [A'|(tk' & s2 & P & _)]).
    2:{ exfalso. exact (word_not_punct _ _ [] _ _ w _ W (app_nil_r _) P). }
    destruct (alike_words (c :: w) s s1 (wordy_word _ _ _ W) A') as (w' & s2 & -> & S & A2).
    destruct (IH s2 (off2 + List.length b' + List.length w')%nat (alike_alike_line _ _ A2)) as (l2 & o2 & t' & R & E & At).
    exists ((tk, (off2 + List.length b')%nat) :: l2), o2, t'. split; [|split; [cbn; congruence|exact At]].
    apply Reads_blanks; [exact Bb|]. apply Reads_word; [eapply up_word; eauto| |exact R].
    destruct D as [D|(I & (s3 & ->) & N)]; [left; eapply alike_delimited; eauto|right].
    destruct (alike_colon _ _ A2) as (s4 & -> & _). split; [eapply up_ident; eauto|]. split; [exists s4; reflexivity|exact N].
  - destruct (word_head _ _ _ W) as (Nw & Hd & Hb & _). destruct w as [|c w]; [congruence|]. cbn [hdc] in *.
    destruct (line_meet c (w ++ ":"%char :: s) s' Hb Hd A) as (b' & s1 & -> & Bb & [A'|(tk' & s2 & P & _)]).
    2:{ exfalso. exact (word_not_punct _ _ [] _ _ w _ W (app_nil_r _) P). }
    destruct (alike_words (c :: w) _ s1 (wordy_word _ _ _ W) A') as (w' & s2 & -> & S & A2).
    destruct (alike_colon _ _ A2) as (s4 & -> & A4).
    destruct (IH s4 (off2 + List.length b' + List.length w' + 1)%nat (alike_alike_line _ _ A4)) as (l2 & o2 & t' & R & E & At).
    exists ((TLabel n, (off2 + List.length b')%nat) :: l2), o2, t'. split; [|split; [cbn; congruence|exact At]].
    apply Reads_blanks; [exact Bb|]. apply Reads_label; [eapply up_word; eauto|exact R].
Qed.

(** the end *)
Lemma ends_alike : forall s s', ends s -> alike_line s s' -> exists b' t', s' = b' ++ t' /\ blanks b' /\ ends t'.
Proof.
  intros s s' En (b & b' & t & t' & B & B' & -> & -> & A).
  assert (NB : forall c, blank c -> ~ line_end c) by (intros c [-> | ->] K; chars).
  destruct b as [|d b]; [|cbn in En; inversion B; subst; destruct (NB d); auto].
  cbn [app] in En. destruct A as [e e' u u' C C' E1 E2|d d' u u' U H|e e' u u' C C' N1 N2 H|e e' d g g' u u' C C' G G' D H|d tk e e' u u' P C C' H].
  - exists (b' ++ e'), u'. rewrite app_assoc. split; [reflexivity|]. split; [apply blanks_app; auto|exact E2].
  - cbn in En. exists b', (d' :: u'). split; [reflexivity|]. split; [exact B'|]. cbn.
    rewrite <- (up_same d d'); auto. intro K. destruct (letter_plain d K) as (Q & _). apply Q. right; left; exact En.
  - destruct e as [|d e]; [congruence|]. cbn in En. inversion C; subst. destruct (NB d); auto.
  - destruct e as [|d' e]; cbn in En; [|inversion C; subst; destruct (NB d'); auto].
    exfalso. destruct D as [-> |[-> | ->]]; chars.
  - exfalso. cbn in En. destruct (punct_head _ _ P); auto.
Qed.

(** errors *)
Lemma line_head : forall c s s', ~ delimiter c -> alike_line (c :: s) s' -> exists b' c' s1, s' = b' ++ c' :: s1 /\ blanks b' /\ upper c = upper c' /\
  (alike s s1 \/ (exists t, punct c t) /\ alike_line s s1).
Proof.
  intros c s s' N A. destruct (line_meet c s s') as (b' & s1 & -> & B & K); auto.
  { intro K. apply N. left. exact K. } { intro K. apply N. right; left. exact K. }
  destruct K as [K|(t & s2 & P & -> & K)].
  - destruct (alike_head _ _ K c s eq_refl N) as (c' & r' & -> & U & Q). exists b', c', r'. auto.
  - exists b', c, s2. split; [reflexivity|]. split; [exact B|]. split; [reflexivity|]. right. eauto.
Qed.

Lemma line_words : forall w s s', w <> [] -> Forall wordy w -> alike_line (w ++ s) s' ->
  exists b' w' s1, s' = b' ++ w' ++ s1 /\ blanks b' /\ same_up w w' /\ alike s s1.
Proof.
  intros w s s' N F A. destruct w as [|c w]; [congruence|]. inversion F as [|? ? Wc Fw]; subst.
  destruct (line_meet c (w ++ s) s') as (b' & s1 & -> & B & K); auto.
  { intro K. exact (blank_not_wordy _ K Wc). } { intro K. exact (end_not_wordy _ K Wc). }
  destruct K as [K|(t & s2 & P & -> & K)]; [|destruct (proj2 Wc _ P)].
  destruct (alike_words (c :: w) s s1 F K) as (w' & s2 & -> & S & A2). exists b', w', s2. auto.
Qed.

Lemma wordy_letters : forall w, Forall letter w -> Forall wordy ("."%char :: w).
Proof.
  intros w F. constructor.
  - split; [intro K; chars|]. intros t [P|[P|[P|[P|[P|P]]]]]; discriminate.
  - eapply Forall_impl; [|exact F]. intros. apply word_char_wordy, letter_word_char; auto.
Qed.
Lemma wordy_numeral : forall b ds n, number b ds n -> Forall wordy (prefix b ++ ds).
Proof.
  intros b ds n H. apply number_chars in H. assert (F : Forall wordy ds) by (eapply Forall_impl; [|exact H]; apply word_char_wordy).
  destruct b; cbn [prefix app]; auto; constructor; auto;
    (split; [intro K; chars|]; intros t [P|[P|[P|[P|[P|P]]]]]; discriminate).
Qed.
Lemma numeral_nonempty : forall b ds n, number b ds n -> prefix b ++ ds <> [].
Proof. intros b ds n H. apply number_nonempty in H. destruct b; cbn; try discriminate. exact H. Qed.

Lemma up_dot : forall w w', same_up ("."%char :: w) w' -> exists w1, w' = "."%char :: w1 /\ same_up w w1.
Proof.
  intros w [|c w'] H; [discriminate|]. unfold same_up in H. cbn [map] in H. injection H as H1 H2. exists w'. split; [|exact H2].
  f_equal. symmetry. apply up_same; [exact H1|intro K; chars].
Qed.

Lemma starter_up : forall c c', upper c = upper c' -> starter c -> starter c'.
Proof. intros c c' H S. upcase H. left. auto. Qed.
Lemma not_up : forall (P : ascii -> Prop), (forall c c', upper c = upper c' -> P c -> P c') ->
  forall c c', upper c = upper c' -> ~ P c -> ~ P c'.
Proof. intros P H c c' U N K. apply N. eapply H; [symmetry; exact U|exact K]. Qed.

Lemma bad_alike : forall lit s e k s', bad_token lit s e k -> alike_line s s' ->
  exists b' s1 k', s' = b' ++ s1 /\ blanks b' /\ bad_token lit s1 e k'.
Proof.
  intros lit s e k s' H A.
  assert (FL : forall w w', same_up w w' -> Forall letter w -> Forall letter w') by (intros; eapply same_up_forall; eauto using up_letter).
  assert (HD : forall c s s1, ~ delimiter c -> alike (c :: s) s1 -> exists c' s2, s1 = c' :: s2 /\ upper c = upper c').
  { intros c s0 s1 N K. destruct (alike_head _ _ K c s0 eq_refl N) as (c' & r' & -> & U & _). eauto. }
  destruct H as [c s B E S L|b s Nb N|b ds n c s Hn N D|w n s Hn D N|w c s I Lw Nw D Nc L|w s I Lw|w c s F Lw Nl D L|w s F Lw D N|w s F Lw].
  - (* bad_start *)
    assert (D : ~ delimiter c).
    { intros [K|[K|K]]; try tauto. apply S. unfold starter. destruct K as [-> |[-> | ->]]; right; right; right; right; right; eexists; unfold punct; eauto 8. }
    destruct (line_head c s s' D A) as (b' & c' & s1 & -> & Bb & U & _). exists b', (c' :: s1), 0%nat. do 2 (split; [auto; fail|]).
    apply bad_start; eauto using up_small.
    + intro K. apply D. eapply up_delimiter; [symmetry; exact U|]. left. exact K.
    + intro K. apply D. eapply up_delimiter; [symmetry; exact U|]. right; left. exact K.
    + eapply not_up; [exact starter_up|exact U|exact S].
  - (* no digit *)
    assert (P : exists p, prefix b = [p] /\ wordy p /\ ~ letter p).
    { destruct b; [exists "$"%char|exists "%"%char|congruence]; (split; [reflexivity|]; split; [|intro K; chars]);
        (split; [intro K; chars|]; intros t [P|[P|[P|[P|[P|P]]]]]; discriminate). }
    destruct P as (p & Ep & Wp & Lp). rewrite Ep in *.
    destruct (line_words [p] s s') as (b' & w' & s1 & -> & Bb & S & A1); auto; [discriminate|].
    destruct w' as [|p' [|]]; try discriminate. unfold same_up in S. cbn in S. injection S as S. rewrite <- (up_same _ _ S Lp).
    exists b', ([p] ++ s1), 1%nat. do 2 (split; [auto; fail|]). rewrite <- Ep. apply bad_no_digit; [exact Nb|].
    intros c t d -> Dg.
    assert (ND : ~ delimiter c) by (apply word_char_not_delim; eapply digit_word_char; exact Dg).
    assert (NW : forall t, ~ punct c t) by (apply word_char_wordy; eapply digit_word_char; exact Dg).
    inversion A1 as [e e' u u' C C' E1 E2 X Y|d1 d' u u' U H X Y|e e' u u' C C' N1 N2 H X Y|e e' d1 g g' u u' C C' G G' Q H X Y|d1 tk e e' u u' Q C C' H X Y]; subst.
    + destruct (blanks_head _ _ _ _ C' Y) as [[K _]|[-> ->]]; [apply ND; left; exact K|]. cbn in E2. apply ND. right; left; exact E2.
    + eapply N; [reflexivity|]. eapply up_digit; [symmetry; exact U|exact Dg].
    + destruct (blanks_head _ _ _ _ C' Y) as [[K _]|[-> ->]]; [apply ND; left; exact K|congruence].
    + destruct (blanks_head _ _ _ _ C' Y) as [[K _]|[-> Z1]]; [apply ND; left; exact K|]. injection Z1 as -> <-. apply ND, bracket_delimiter, Q.
    + exact (NW _ Q).
  - (* bad digit *)
    rewrite app_assoc in A. destruct (line_words (prefix b ++ ds) (c :: s) s') as (b' & w' & s1 & -> & Bb & S & A1); eauto using wordy_numeral, numeral_nonempty.
    destruct (HD _ _ _ D A1) as (c' & s2 & -> & U). destruct (same_up_prefix _ _ _ S) as (ds' & -> & S').
    exists b', ((prefix b ++ ds') ++ c' :: s2). rewrite <- (app_assoc (prefix b)). eexists. split; [reflexivity|]. split; [exact Bb|].
    eapply bad_digit; [eapply up_number; eauto|eapply up_no_digit; eauto|eapply not_up; [exact up_delimiter|exact U|exact D]].
  - (* bad value *)
    destruct Hn as (b & ds & -> & Hn). destruct (line_words (prefix b ++ ds) s s') as (b' & w' & s1 & -> & Bb & S & A1); eauto using wordy_numeral, numeral_nonempty.
    exists b', (w' ++ s1), 0%nat. do 2 (split; [auto; fail|]). eapply bad_value; [|eapply alike_delimited; eauto|exact N].
    eapply up_numeral; [exact S|]. exists b, ds. auto.
  - (* bad character in an identifier *)
    destruct (line_words w (c :: s) s') as (b' & w' & s1 & -> & Bb & S & A1); auto using ident_nonempty.
    { eapply Forall_impl; [|apply ident_word_chars, I]. apply word_char_wordy. }
    destruct (HD _ _ _ D A1) as (c' & s2 & -> & U). exists b', (w' ++ c' :: s2). eexists. split; [reflexivity|]. split; [exact Bb|].
    apply bad_ident_char; [eapply up_ident; eauto|rewrite <- (same_up_length _ _ S); exact Lw|eapply not_up; [exact up_word_char|exact U|exact Nw]
      |eapply not_up; [exact up_delimiter|exact U|exact D]| |eapply up_small; eauto].
    intros ->. apply Nc. symmetry. apply up_same; [symmetry; exact U|intro K; chars].
  - (* too long *)
    destruct (line_words w s s') as (b' & w' & s1 & -> & Bb & S & A1); auto using ident_nonempty.
    { eapply Forall_impl; [|apply ident_word_chars, I]. apply word_char_wordy. }
    exists b', (w' ++ s1), 0%nat. do 2 (split; [auto; fail|]). apply bad_ident_length; [eapply up_ident; eauto|rewrite <- (same_up_length _ _ S); exact Lw].
  - (* directives *)
    destruct (line_words ("."%char :: w) (c :: s) s') as (b' & w' & s1 & -> & Bb & S & A1); auto using wordy_letters; [discriminate|].
    destruct (HD _ _ _ D A1) as (c' & s2 & -> & U). destruct (up_dot _ _ S) as (w1 & -> & S1).
    exists b', ("."%char :: w1 ++ c' :: s2). eexists. split; [reflexivity|]. split; [exact Bb|].
    apply bad_directive_char; [eapply FL; eauto|rewrite <- (same_up_length _ _ S1); exact Lw|eapply not_up; [exact up_letter|exact U|exact Nl]
      |eapply not_up; [exact up_delimiter|exact U|exact D]|eapply up_small; eauto].
  - destruct (line_words ("."%char :: w) s s') as (b' & w' & s1 & -> & Bb & S & A1); auto using wordy_letters; [discriminate|].
    pose proof S as S0. destruct (up_dot _ _ S) as (w1 & -> & S1). exists b', ("."%char :: w1 ++ s1). eexists. split; [reflexivity|]. split; [exact Bb|].
    apply bad_directive; [eapply FL; eauto|rewrite <- (same_up_length _ _ S1); exact Lw|eapply alike_delimited; eauto|].
    intros d K. apply (N d). eapply up_directive_means; [|exact K]. unfold same_up in *. congruence.
  - destruct (line_words ("."%char :: w) s s') as (b' & w' & s1 & -> & Bb & S & A1); auto using wordy_letters; [discriminate|].
    destruct (up_dot _ _ S) as (w1 & -> & S1). exists b', ("."%char :: w1 ++ s1). eexists. split; [reflexivity|]. split; [exact Bb|].
    apply bad_directive_length; [eapply FL; eauto|rewrite <- (same_up_length _ _ S1); exact Lw].
Qed.

Lemma high_not_delimiter : forall c, high c -> ~ delimiter c.
Proof.
  intros c H D. unfold high in H. unfold delimiter, blank, line_end in D.
  destruct D as [[D|D]|[[D|[D|[D|[D|D]]]]|[D|[D|D]]]]; subst c; revert H; char_codes; lia.
Qed.

Lemma high_alike : forall s s', high_token s -> alike_line s s' -> exists b' s1, s' = b' ++ s1 /\ blanks b' /\ high_token s1.
Proof.
  intros s s' H A. destruct H as [c s H|w c s I L H|w c s F L H].
  - destruct (line_head c s s' (high_not_delimiter _ H) A) as (b' & c' & s1 & -> & B & U & _).
    exists b', (c' :: s1). do 2 (split; [auto; fail|]). constructor. eapply up_high; eauto.
  - destruct (line_words w (c :: s) s') as (b' & w' & s1 & -> & Bb & S & A1); auto using ident_nonempty.
    { eapply Forall_impl; [|apply ident_word_chars, I]. apply word_char_wordy. }
    destruct (alike_head _ _ A1 c s eq_refl (high_not_delimiter _ H)) as (c' & s2 & -> & U & _).
    exists b', (w' ++ c' :: s2). do 2 (split; [auto; fail|]). apply high_ident; [eapply up_ident; eauto|rewrite <- (same_up_length _ _ S); exact L|eapply up_high; eauto].
  - destruct (line_words ("."%char :: w) (c :: s) s') as (b' & w' & s1 & -> & Bb & S & A1); auto using wordy_letters; [discriminate|].
    destruct (alike_head _ _ A1 c s eq_refl (high_not_delimiter _ H)) as (c' & s2 & -> & U & _).
    destruct (up_dot _ _ S) as (w1 & -> & S1). exists b', ("."%char :: w1 ++ c' :: s2). do 2 (split; [auto; fail|]).
    apply high_directive; [eapply same_up_forall; eauto using up_letter|rewrite <- (same_up_length _ _ S1); exact L|eapply up_high; eauto].
Qed.

Lemma Reads_more_blanks : forall lit first off s l f' o' b t, Reads lit first off s l f' o' (b ++ t) -> blanks b ->
  exists o2, Reads lit first off s l f' o2 t.
Proof.
  intros lit first off s l f' o' b t H B. remember (b ++ t) as x eqn:E.
  induction H; subst; try (destruct IHReads as (o2 & R); [reflexivity|]; exists o2; econstructor; eassumption).
  exists (off + List.length b)%nat. apply Reads_blanks; [exact B|constructor].
Qed.

Theorem alike_acts : forall l l', alike_line l l' -> acts_as l l'.
Proof.
  intros l l' A. apply same_tokens_act.
  - intros toks L N. destruct (Lexes_Reads _ _ _ _ _ L) as (f & o & t & R & En).
    destruct (reads_alike _ _ _ _ _ _ _ _ R l' 0%nat A) as (l2 & o2 & t' & R' & E & At).
    destruct (ends_alike _ _ En At) as (b' & t2 & -> & B & En').
    destruct (Reads_more_blanks _ _ _ _ _ _ _ _ _ R' B) as (o3 & R3).
    exists l2. split; [eapply Reads_Lexes; eauto|auto].
  - intros e pos (toks & f & o & s & k & R & N & Bd & _).
    destruct (reads_alike _ _ _ _ _ _ _ _ R l' 0%nat A) as (l2 & o2 & t' & R' & E & At).
    destruct (bad_alike _ _ _ _ _ Bd At) as (b' & s1 & k' & -> & B & Bd').
    destruct (Reads_more_blanks _ _ _ _ _ _ _ _ _ R' B) as (o3 & R3).
    exists (o3 + k')%nat, l2, f, o3, s1, k'. split; [exact R3|]. split; [|auto].
    rewrite <- (map_length fst l2), E, map_length. exact N.
  - intros (toks & f & o & s & R & N). destruct (reads_alike _ _ _ _ _ _ _ _ R l' 0%nat A) as (l2 & o2 & t' & R' & E & At).
    exists l2, f, o2, t'. split; [exact R'|]. rewrite <- (map_length fst l2), E, map_length. exact N.
  - intros (toks & f & o & s & R & N & H). destruct (reads_alike _ _ _ _ _ _ _ _ R l' 0%nat A) as (l2 & o2 & t' & R' & E & At).
    destruct (high_alike _ _ H At) as (b' & s1 & -> & B & H').
    destruct (Reads_more_blanks _ _ _ _ _ _ _ _ _ R' B) as (o3 & R3).
    exists l2, f, o3, s1. split; [exact R3|]. split; [|exact H']. rewrite <- (map_length fst l2), E, map_length. exact N.
Qed.
