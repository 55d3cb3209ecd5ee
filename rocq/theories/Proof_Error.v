(** Proof_Error.v -- print_error (C33 and the form of the reports). *)
From Verif Require Import Base Proof_Base Model_Opcode Model_Error Spec_Report.

Lemma is_trailing_spec : forall c, is_trailing c = true <-> trailing c.
Proof.
  intro c. unfold is_trailing, trailing.
  rewrite !orb_true_iff, !Ascii.eqb_eq, schar_eof, Z.eqb_eq.
  assert (code c = 255 <-> c = chr 255) as ->.
  { split; [intro H; apply code_inj; rewrite H; reflexivity|intros ->; reflexivity]. }
  tauto.
Qed.

(** ** The arrow *)
Lemma arrow_column : forall s num align, (align <= 8)%nat -> (num mod 8 = align mod 8)%nat ->
  fst (fold_left arrow_step s (num, align)) = fold_left next_column s num.
Proof.
  induction s as [|c s IH]; intros num align L E; [reflexivity|].
  cbn [fold_left]. unfold arrow_step at 2. unfold next_column at 2.
  assert (exists a, (if Nat.eqb align 8 then 0%nat else align) = a /\ (a < 8)%nat /\ (num mod 8 = a)%nat)
    as (a & Ea & La & Ma).
  { destruct (Nat.eqb_spec align 8) as [->|N].
    - exists 0%nat. repeat split; try lia. rewrite E. reflexivity.
    - exists align. repeat split; try lia. rewrite E. apply Nat.mod_small. lia. }
  cbv zeta. rewrite Ea. pose proof (Nat.div_mod num 8) as D.
  destruct (Ascii.eqb c ch_tab).
  - assert ((num / 8 + 1) * 8 = num + (8 - a))%nat as -> by lia.
    apply IH; [lia|]. assert (num + (8 - a) = 0 + (num / 8 + 1) * 8)%nat as -> by lia.
    rewrite Nat.mod_add by lia. reflexivity.
  - apply IH; [lia|]. assert (S num = S a + (num / 8) * 8)%nat as -> by lia.
    rewrite Nat.mod_add by lia. reflexivity.
Qed.

Lemma arrow_spaces_column : forall s, arrow_spaces s = column s.
Proof. intro s. unfold arrow_spaces, column. apply arrow_column; reflexivity || lia. Qed.

(** ** Trailing blanks *)
Lemma drop_while_split : forall p s, exists t, s = t ++ drop_while p s /\ Forall (fun c => p c = true) t.
Proof.
  induction s as [|c s (t & E & F)]; cbn.
  - exists []; auto.
  - destruct (p c) eqn:K.
    + exists (c :: t). split; [cbn; rewrite E at 1; reflexivity|constructor; auto].
    + exists []. auto.
Qed.

Lemma drop_while_head : forall p s c r, drop_while p s = c :: r -> p c = false.
Proof.
  induction s as [|x s IH]; cbn; intros c r H; [discriminate|].
  destruct (p x) eqn:K; [eauto|]. injection H as -> ->. exact K.
Qed.

Lemma drop_while_nil : forall p s, drop_while p s = [] -> Forall (fun c => p c = true) s.
Proof.
  induction s as [|x s IH]; cbn; intro H; [constructor|].
  destruct (p x) eqn:K; [constructor; auto|discriminate].
Qed.

(** [line] contains a character that is shown *)
Definition visible (line : text) : Prop := exists c, In c line /\ ~ trailing c.

Lemma strip_trailing_ok : forall line, visible line ->
  exists shown, strip_trailing line = Ret shown /\ shown_as line shown.
Proof.
  intros line (c & Hin & Hc). unfold strip_trailing.
  destruct (drop_while_split is_trailing (rev line)) as (t & E & F).
  destruct (drop_while is_trailing (rev line)) as [|x r] eqn:D.
  - apply drop_while_nil in D. rewrite Forall_forall in D.
    specialize (D c). rewrite <- in_rev in D. apply D in Hin. apply is_trailing_spec in Hin. tauto.
  - exists (rev (x :: r)). split; auto. exists (rev t). repeat split.
    + rewrite <- (rev_involutive line), E, rev_app_distr. reflexivity.
    + apply Forall_forall. intros y Hy. apply in_rev in Hy. rewrite Forall_forall in F.
      apply is_trailing_spec. auto.
    + exists (rev r), x. split; [reflexivity|]. apply drop_while_head in D.
      rewrite <- is_trailing_spec. congruence.
Qed.

Lemma strip_trailing_undef : forall line, ~ visible line -> strip_trailing line = Undef UbUnderrun.
Proof.
  intros line H. unfold strip_trailing. destruct (drop_while is_trailing (rev line)) as [|x r] eqn:D; auto.
  exfalso. apply H. exists x. pose proof (drop_while_head _ _ _ _ D) as K.
  destruct (drop_while_split is_trailing (rev line)) as (t & E & F). split.
  - apply in_rev. rewrite E, D. apply in_or_app. right. left. reflexivity.
  - rewrite <- is_trailing_spec. congruence.
Qed.

(** ** The messages *)
Definition message_of (code : Z) : option string :=
  if code =? ERROR_ILLEGAL_CHAR then Some "illegal character"%string
  else if code =? ERROR_TOO_BIG_LITERAL then Some "value of literal exceeds 2 bytes"%string
  else if code =? ERROR_TOO_LONG_LABEL then Some "label exceeds 63 characters"%string
  else if code =? ERROR_ILLEGAL_SEQUENCE then Some "illegal syntax"%string
  else if code =? ERROR_LABEL_REDEFINITION then Some "no redefinition of labels"%string
  else if code =? ERROR_ILLEGAL_FORWARD_REFERENCE then Some "illegal forward reference"%string
  else if code =? ERROR_ILLEGAL_ADDRESSING_MODE then Some "illegal addressing mode"%string
  else if code =? ERROR_TOO_BIG_OFFSET then Some "branch offset too far away"%string
  else if code =? ERROR_MISSING_LABEL_DEFINITION then Some "label definition was not found"%string
  else if code =? ERROR_ILLEGAL_DIRECTIVE then Some "illegal assembler directive"%string
  else if code =? ERROR_ILLEGAL_BASE then Some "illegal base"%string
  else None.

Lemma message_of_spec : forall code m file, message_of code = Some m ->
  error_message code file = Some (T "ERROR: " ++ T m ++ [ch_nl]).
Proof.
  intros code m file H. unfold message_of in H.
  repeat match type of H with (if ?a =? ?b then _ else _) = _ =>
    destruct (Z.eqb_spec a b) as [->|]; [injection H as <-; reflexivity|] end.
  discriminate.
Qed.

Lemma print_error_report : forall line code pos file n m, visible line ->
  match pos with Some p => (p <= List.length line)%nat | None => True end ->
  message_of code = Some m ->
  exists out, print_error (Some line) code pos file n = Ret out /\
              Report file n m line pos out.
Proof.
  intros line code pos file n m V P Hm. unfold print_error.
  rewrite (message_of_spec code m file Hm).
  destruct (strip_trailing_ok line V) as (shown & -> & S). cbn [bind].
  change (fmt_d n) with (decimal n).
  destruct pos as [p|].
  - destruct (Nat.ltb_spec (List.length line) p); [lia|].
    eexists. split; [reflexivity|]. exists shown. split; auto.
    rewrite arrow_spaces_column. rewrite <- !app_assoc. reflexivity.
  - eexists. split; [reflexivity|]. exists shown. split; auto.
    rewrite <- !app_assoc. reflexivity.
Qed.

Lemma shown_as_fun : forall line a b, shown_as line a -> shown_as line b -> a = b.
Proof.
  assert (K : forall line a b, shown_as line a -> shown_as line b ->
              (List.length a <= List.length b)%nat -> a = b).
  { intros line a b (ta & Ea & Fa & fa & ca & Sa & Na) (tb & Eb & Fb & fb & cb & Sb & Nb) L.
    assert (exists m, b = a ++ m) as [m Em].
    { exists (skipn (List.length a) b).
      assert (a = firstn (List.length a) b) as E.
      { transitivity (firstn (List.length a) line).
        - rewrite Ea, firstn_app, Nat.sub_diag, firstn_all, firstn_O, app_nil_r. reflexivity.
        - rewrite Eb, firstn_app. replace (List.length a - List.length b)%nat with 0%nat by lia.
          rewrite firstn_O, app_nil_r. reflexivity. }
      rewrite E at 1. rewrite firstn_skipn. reflexivity. }
    destruct m as [|x m]; [rewrite app_nil_r in Em; auto|]. exfalso.
    rewrite Eb, Em, <- app_assoc in Ea. apply app_inv_head in Ea.
    assert (In cb (x :: m)) as Hin.
    { assert (exists m' y, x :: m = m' ++ [y]) as (m' & y & E').
      { destruct (exists_last (l := x :: m)) as (m' & y & E'); [discriminate|eauto]. }
      rewrite E'. rewrite Em, E', app_assoc in Sb. apply app_inj_tail in Sb. destruct Sb as [_ ->].
      apply in_or_app; right; left; reflexivity. }
    rewrite Forall_forall in Fa. apply Nb. apply Fa. rewrite <- Ea. apply in_or_app. auto. }
  intros line a b Ha Hb. destruct (Nat.le_ge_cases (List.length a) (List.length b)).
  - eapply K; eauto.
  - symmetry. eapply K; eauto.
Qed.

Lemma Report_fun : forall file n m line pos o o', Report file n m line pos o ->
  Report file n m line pos o' -> o = o'.
Proof.
  intros file n m line pos o o' (s & S & ->) (s' & S' & ->).
  rewrite (shown_as_fun line s s' S S'). reflexivity.
Qed.
