(** Proof_Fun.v -- the specification of the source text is a function: a line has one
    list of tokens, a list of tokens is one statement, a line denotes one statement. *)
From Verif Require Import Base Spec_Isa Spec_Text Proof_Chars Proof_Lex1 Proof_Lex2.

(** a character of a word *)
Definition plain (c : ascii) : Prop := ~ delimiter c /\ c <> ":"%char.
Definition stops (s : text) : Prop := match s with [] => True | c :: _ => ~ plain c end.

Lemma delimited_stops : forall s, delimited s -> stops s.
Proof. intros [|c s] H; cbn in *; auto. intros (K & _). auto. Qed.
Lemma colon_stops : forall s, stops (":"%char :: s).
Proof. intros s (_ & K). auto. Qed.

Lemma word_char_plain : forall c, word_char c -> plain c.
Proof. intros c H. split; [apply word_char_not_delim|apply word_char_not_colon]; exact H. Qed.

Lemma words_plain : forall w, Forall word_char w -> Forall plain w.
Proof. intros w H. eapply Forall_impl; [|exact H]. intros. apply word_char_plain; auto. Qed.

Lemma word_plain : forall lit w t, word lit w t -> Forall plain w.
Proof.
  intros lit w t H. destruct H as [w t I _ _|w n v (b & ds & -> & Hn) _|w d Hd].
  - apply words_plain, ident_word_chars, I.
  - apply number_chars, words_plain in Hn. destruct b; cbn [prefix app]; auto; constructor; auto; (split; [intro K; chars|discriminate]).
  - destruct (directive_shape _ _ Hd) as (cs & -> & F & _). constructor; [split; [intro K; chars|discriminate]|].
    apply words_plain. eapply Forall_impl; [|exact F]. intros. apply letter_word_char; auto.
Qed.

Lemma run_unique : forall w w' s s', Forall plain w -> Forall plain w' -> stops s -> stops s' -> w ++ s = w' ++ s' -> w = w' /\ s = s'.
Proof.
  induction w as [|c w IH]; intros [|c' w'] s s' F F' H H' E; cbn [app] in E.
  - auto.
  - subst s. inversion F'; subst. cbn in H. contradiction.
  - subst s'. inversion F; subst. cbn in H'. contradiction.
  - injection E as -> E. inversion F; subst. inversion F'; subst. destruct (IH w' s s') as [-> ->]; auto.
Qed.

Lemma directive_fun : forall w d d', directive_means w d -> directive_means w d' -> d = d'.
Proof. intros w d d' H H'. apply directive_means_iff in H, H'. congruence. Qed.

Lemma numeral_fun : forall w n n', numeral w n -> numeral w n' -> n = n'.
Proof.
  intros w n n' (b & ds & -> & H) (b' & ds' & E & H').
  assert (K : forall ds n, number Dec ds n -> exists c r, ds = c :: r /\ 48 <= code c <= 57).
  { intros d m Hd. inversion Hd; subst; match goal with X : digit_of Dec _ _ |- _ => inversion X; subst end; eauto. }
  destruct b, b'; cbn [prefix app] in E; try discriminate;
    try (injection E as ->; eapply number_fun; eassumption); try (subst; eapply number_fun; eassumption);
    exfalso; (destruct (K _ _ H) as (c & r & X & R) || destruct (K _ _ H') as (c & r & X & R)); subst; 
    try discriminate; first [injection E as E _ | injection X as E _]; subst; revert R; char_codes; lia.
Qed.

(** numerals, identifiers and directives start differently *)
Lemma word_fun : forall (lit : Z -> Z -> Prop) (LF : forall n v v', lit n v -> lit n v' -> v = v') w t t',
  word lit w t -> word lit w t' -> t = t'.
Proof.
  intros lit LF w t t' H H'.
  assert (ID : forall w, ident w -> exists c r, w = c :: r /\ letter c) by (intros x (c & cs & -> & L & _); eauto).
  assert (NU : forall w n, numeral w n -> exists c r, w = c :: r /\ ~ letter c /\ c <> "."%char).
  { intros x n (b & ds & -> & Hn). destruct b; cbn [prefix app].
    - eexists _, _. split; [reflexivity|]. split; [intro K; chars|discriminate].
    - eexists _, _. split; [reflexivity|]. split; [intro K; chars|discriminate].
    - inversion Hn; subst; match goal with X : digit_of Dec _ _ |- _ => inversion X; subst end;
        (eexists _, _; split; [reflexivity|]; split; intro K; [unfold letter in K; lia|]; subst; revert H0; char_codes; lia). }
  assert (DI : forall w d, directive_means w d -> exists r, w = "."%char :: r).
  { intros x d Hd. destruct (directive_shape _ _ Hd) as (cs & -> & _). eauto. }
  assert (LD : ~ letter "."%char) by (intro K; chars).
  destruct H as [w t I L M|w n v N Lv|w d D]; inversion H' as [w' t0 I' L' M'|w' n' v' N' Lv'|w' d' D']; subst.
  - apply ident_means_iff in M, M'. congruence.
  - destruct (ID _ I) as (c & r & -> & K). destruct (NU _ _ N') as (c' & r' & E & K' & _). injection E as -> ->. contradiction.
  - destruct (ID _ I) as (c & r & -> & K). destruct (DI _ _ D') as (r' & E). injection E as -> ->. contradiction.
  - destruct (ID _ I') as (c & r & -> & K). destruct (NU _ _ N) as (c' & r' & E & K' & _). injection E as -> ->. contradiction.
  - f_equal. rewrite (numeral_fun _ _ _ N N') in Lv. eapply LF; eauto.
  - destruct (NU _ _ N) as (c & r & -> & K & K2). destruct (DI _ _ D') as (r' & E). injection E as -> ->. congruence.
  - destruct (ID _ I') as (c & r & -> & K). destruct (DI _ _ D) as (r' & E). injection E as -> ->. contradiction.
  - destruct (NU _ _ N') as (c & r & -> & K & K2). destruct (DI _ _ D) as (r' & E). injection E as -> ->. congruence.
  - f_equal. eapply directive_fun; eauto.
Qed.

Lemma literal16_fun : forall n v v', literal16 n v -> literal16 n v' -> v = v'.
Proof. intros n v v' (-> & _) (-> & _). reflexivity. Qed.

Lemma punct_fun : forall c t t', punct c t -> punct c t' -> t = t'.
Proof.
  intros c t t' H H'.
  destruct H as [H|[H|[H|[H|[H|H]]]]]; injection H as -> ->;
  destruct H' as [H'|[H'|[H'|[H'|[H'|H']]]]]; congruence.
Qed.

Lemma word_not_punct : forall lit w s t c r t', word lit w t -> w ++ s = c :: r -> ~ punct c t'.
Proof.
  intros lit w s t c r t' W E P.
  assert (PL : c = "#"%char \/ c = "("%char \/ c = ")"%char \/ c = ","%char \/ c = "="%char \/ c = "*"%char).
  { destruct P as [P|[P|[P|[P|[P|P]]]]]; injection P as -> _; auto 8. }
  destruct W as [w t (d & cs & -> & L & _) _ _|w n v (b & ds & -> & Hn) _|w d Hd].
  - cbn in E. injection E as -> _. intuition (subst; chars).
  - destruct b; cbn [prefix app] in E.
    + injection E as <- _. intuition discriminate.
    + injection E as <- _. intuition discriminate.
    + inversion Hn; subst; match goal with X : digit_of Dec _ _ |- _ => inversion X; subst end; cbn in E; injection E as -> _;
        intuition (subst; revert H; char_codes; lia).
  - destruct (directive_shape _ _ Hd) as (cs & -> & _). cbn in E. injection E as <- _. intuition discriminate.
Qed.

Theorem Lexes_fun : forall (lit : Z -> Z -> Prop) (LF : forall n v v', lit n v -> lit n v' -> v = v') first off s l l',
  Lexes lit first off s l -> Lexes lit first off s l' -> l = l'.
Proof.
  intros lit LF first off s l l' H. revert l'.
  assert (WH : forall w t s c r, word lit w t -> w ++ s = c :: r -> ~ blank c /\ ~ line_end c).
  { intros w t s0 c r W E. destruct (word_head _ _ _ W) as (N & E1 & E2 & _). destruct w as [|d w]; [congruence|].
    cbn in E. injection E as -> _. cbn [hdc] in *. auto. }
  assert (PB : forall c t, punct c t -> ~ blank c /\ ~ line_end c) by (intros c t P; apply punct_head in P; tauto).
  assert (BL : forall c, blank c -> ~ line_end c) by (intros c [-> | ->] K; chars).
  assert (NE : forall w t s, word lit w t -> exists c r, w ++ s = c :: r).
  { intros w t s0 W. destruct (word_head _ _ _ W) as (N & _). destruct w as [|d w]; [congruence|]. cbn. eauto. }
  assert (WP : forall w t s c r t', word lit w t -> w ++ s = c :: r -> ~ punct c t') by (intros; eapply word_not_punct; eauto).
  assert (WD : forall w t w' t' s s', word lit w t -> word lit w' t' -> stops s -> stops s' -> w ++ s = w' ++ s' -> w = w' /\ s = s').
  { intros. eapply run_unique; eauto using word_plain. }
  assert (WE : forall w t s, word lit w t -> ~ ends (w ++ s)).
  { intros w t s0 W K. destruct (NE _ _ s0 W) as (c & r & X). rewrite X in K. exact (proj2 (WH _ _ _ _ _ W X) K). }
  assert (DC : forall s, ~ delimited (":"%char :: s)) by (intros s0 K; cbn in K; chars).
  Ltac absurd_lex WH WP PB BL WE :=
    exfalso;
    match goal with
    | B : blank ?c, E : ends (?c :: _) |- _ => exact (BL _ B E)
    | P : punct ?c _, E : ends (?c :: _) |- _ => exact (proj2 (PB _ _ P) E)
    | P : punct ?c _, B : blank ?c |- _ => exact (proj1 (PB _ _ P) B)
    | W : word _ ?w _, E : ends (?w ++ _) |- _ => exact (WE _ _ _ W E)
    | W : word _ ?w _, E : ?c :: _ = ?w ++ _, B : blank ?c |- _ => exact (proj1 (WH _ _ _ _ _ W (eq_sym E)) B)
    | W : word _ ?w _, E : ?w ++ _ = ?c :: _, B : blank ?c |- _ => exact (proj1 (WH _ _ _ _ _ W E) B)
    | W : word _ ?w _, E : ?c :: _ = ?w ++ _, P : punct ?c _ |- _ => exact (WP _ _ _ _ _ _ W (eq_sym E) P)
    | W : word _ ?w _, E : ?w ++ _ = ?c :: _, P : punct ?c _ |- _ => exact (WP _ _ _ _ _ _ W E P)
    end.
  induction H as [first off s E|first off c s l B H IH|first off c t s l P H IH|first off w t s l W D H IH|off w name s l W H IH];
    intros l' H'.
  - inversion H'; subst; try (absurd_lex WH WP PB BL WE). reflexivity.
  - inversion H'; subst; try (absurd_lex WH WP PB BL WE). apply IH; auto.
  - inversion H'; subst; try (absurd_lex WH WP PB BL WE).
    match goal with P' : punct c _ |- _ => rewrite (punct_fun _ _ _ P P') end. f_equal. apply IH; auto.
  - inversion H'; subst; try (absurd_lex WH WP PB BL WE).
    + match goal with X : _ ++ _ = _ ++ _, W' : word lit ?x _, D' : delimited ?y |- _ =>
        match type of X with x ++ y = _ => destruct (WD _ _ _ _ _ _ W' W (delimited_stops _ D') (delimited_stops _ D) X) as [-> ->];
          rewrite (word_fun lit LF _ _ _ W W') end end.
      f_equal. apply IH; auto.
    + match goal with X : ?x ++ _ = w ++ _, W' : word lit ?x _ |- _ =>
        destruct (WD _ _ _ _ _ _ W' W (colon_stops _) (delimited_stops _ D) X) as [-> <-] end. destruct (DC _ D).
  - inversion H'; subst; try (absurd_lex WH WP PB BL WE).
    + match goal with X : ?x ++ ?y = w ++ _, W' : word lit ?x _, D' : delimited ?y |- _ =>
        destruct (WD _ _ _ _ _ _ W' W (delimited_stops _ D') (colon_stops _) X) as [-> ->]; destruct (DC _ D') end.
    + match goal with X : ?x ++ ?y = w ++ _, W' : word lit ?x _ |- _ =>
        destruct (WD _ _ _ _ _ _ W' W (colon_stops _) (colon_stops _) X) as [-> Y];
        injection Y as ->; pose proof (word_fun lit LF _ _ _ W W') as Y; injection Y as -> end. f_equal. apply IH; auto.
Qed.

Lemma Expr_fun : forall t e e', Expr t e -> Expr t e' -> e = e'.
Proof. intros t e e' H H'. destruct H; inversion H'; subst; reflexivity. Qed.

Lemma Operand_fun : forall l o o', Operand l o -> Operand l o' -> o = o'.
Proof.
  intros l o o' H H'. destruct H; inversion H'; subst; try reflexivity;
    try (match goal with A : Expr ?t ?e, B : Expr ?t ?e' |- _ => rewrite (Expr_fun _ _ _ A B); reflexivity end);
    try (match goal with A : Expr TA _ |- _ => inversion A end).
Qed.

Theorem Line_fun : forall l s s', Line l s -> Line l s' -> s = s'.
Proof.
  intros l s s' H H'. destruct H; inversion H'; subst; try reflexivity; f_equal; eapply Operand_fun; eassumption.
Qed.

Theorem line_means_fun : forall line s s', line_means line s -> line_means line s' -> s = s'.
Proof.
  intros line s s' (t & H1 & H2) (t' & H3 & H4).
  rewrite (Lexes_fun _ literal16_fun _ _ _ _ _ H1 H3) in H2. eapply Line_fun; eauto.
Qed.
