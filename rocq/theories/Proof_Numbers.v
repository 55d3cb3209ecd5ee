(** Proof_Numbers.v -- the numbers of the reports have the value they should have. *)
From Coq Require Import Decimal Hexadecimal DecimalString HexadecimalString DecimalZ HexadecimalN.
From Verif Require Import Base Proof_Base Model_Opcode Model_Lexer Spec_Text Spec_Report Proof_Chars.

Definition dtext (d : Decimal.uint) : text := list_ascii_of_string (DecimalString.NilEmpty.string_of_uint d).
Definition htext (d : Hexadecimal.uint) : text := list_ascii_of_string (HexadecimalString.NilEmpty.string_of_uint d).
Definition digits_ok (b : base) (ds : text) : bool :=
  forallb (fun c => negb (converter b c =? ERROR_ILLEGAL_CHAR)) ds.

Lemma dtext_ok : forall d, digits_ok Dec (dtext d) = true.
Proof.
  induction d; [reflexivity|..]; unfold dtext, digits_ok in *;
    cbn [DecimalString.NilEmpty.string_of_uint list_ascii_of_string forallb]; rewrite IHd; reflexivity.
Qed.
Lemma htext_ok : forall d, digits_ok Hex (htext d) = true.
Proof.
  induction d; [reflexivity|..]; unfold htext, digits_ok in *;
    cbn [HexadecimalString.NilEmpty.string_of_uint list_ascii_of_string forallb]; rewrite IHd; reflexivity.
Qed.

Lemma dacc : forall d p, Z.pos (Pos.of_uint_acc d p) = Z.pos p * 10 ^ Z.of_nat (List.length (dtext d)) + eval_digits Dec (dtext d).
Proof.
  assert (S : forall c l, Z.of_nat (List.length (c :: l : text)) = Z.of_nat (List.length l) + 1) by (intros; cbn [List.length]; lia).
  induction d; intro p; [cbn [dtext]; unfold dtext; cbn; lia|..];
    cbn [Pos.of_uint_acc]; rewrite IHd; clear IHd; unfold dtext; cbn [DecimalString.NilEmpty.string_of_uint list_ascii_of_string eval_digits];
    rewrite S, Z.pow_add_r by lia; change (radix Dec) with 10; change (10 ^ 1) with 10;
    match goal with |- context [converter Dec ?c] => let v := eval vm_compute in (converter Dec c) in change (converter Dec c) with v end;
    generalize (10 ^ Z.of_nat (List.length (list_ascii_of_string (DecimalString.NilEmpty.string_of_uint d)))); intro x; lia.
Qed.

Lemma hacc : forall d p, Z.pos (Pos.of_hex_uint_acc d p) = Z.pos p * 16 ^ Z.of_nat (List.length (htext d)) + eval_digits Hex (htext d).
Proof.
  assert (S : forall c l, Z.of_nat (List.length (c :: l : text)) = Z.of_nat (List.length l) + 1) by (intros; cbn [List.length]; lia).
  induction d; intro p; [cbn [htext]; unfold htext; cbn; lia|..];
    cbn [Pos.of_hex_uint_acc]; rewrite IHd; clear IHd; unfold htext; cbn [HexadecimalString.NilEmpty.string_of_uint list_ascii_of_string eval_digits];
    rewrite S, Z.pow_add_r by lia; change (radix Hex) with 16; change (16 ^ 1) with 16;
    match goal with |- context [converter Hex ?c] => let v := eval vm_compute in (converter Hex c) in change (converter Hex c) with v end;
    generalize (16 ^ Z.of_nat (List.length (list_ascii_of_string (HexadecimalString.NilEmpty.string_of_uint d)))); intro x; lia.
Qed.

Lemma dval : forall d, Z.of_N (Pos.of_uint d) = eval_digits Dec (dtext d).
Proof.
  induction d; [reflexivity|..]; cbn [Pos.of_uint];
    [rewrite IHd; unfold dtext; reflexivity|..];
    rewrite <- (Z.add_0_r (Z.of_N _)) at 1; cbn [Z.of_N]; rewrite dacc; unfold dtext;
    cbn [DecimalString.NilEmpty.string_of_uint list_ascii_of_string eval_digits]; change (radix Dec) with 10;
    match goal with |- context [converter Dec ?c] => let v := eval vm_compute in (converter Dec c) in change (converter Dec c) with v end;
    lia.
Qed.

Lemma hval : forall d, Z.of_N (Pos.of_hex_uint d) = eval_digits Hex (htext d).
Proof.
  induction d; [reflexivity|..]; cbn [Pos.of_hex_uint];
    [rewrite IHd; unfold htext; reflexivity|..];
    rewrite <- (Z.add_0_r (Z.of_N _)) at 1; cbn [Z.of_N]; rewrite hacc; unfold htext;
    cbn [HexadecimalString.NilEmpty.string_of_uint list_ascii_of_string eval_digits]; change (radix Hex) with 16;
    match goal with |- context [converter Hex ?c] => let v := eval vm_compute in (converter Hex c) in change (converter Hex c) with v end;
    lia.
Qed.

(** the decimal notation of the reports denotes the number *)
Theorem decimal_value : forall n, 0 <= n -> number Dec (decimal n) n.
Proof.
  intros n H. unfold decimal. unfold T.
  assert (exists d, Z.to_int n = Decimal.Pos d /\ Z.of_N (Pos.of_uint d) = n) as (d & -> & E).
  { pose proof (DecimalZ.of_to n) as K. destruct n as [|q|q]; [|..|lia]; cbn [Z.to_int] in *; eexists; split; try reflexivity; exact K. }
  cbn [DecimalString.NilZero.string_of_int]. 
  assert (N : forall d, d <> Decimal.Nil -> number Dec (dtext d) (Z.of_N (Pos.of_uint d))).
  { intros x Hx. rewrite dval. apply number_eval; [|apply dtext_ok|reflexivity]. destruct x; try congruence; discriminate. }
  rewrite <- E. destruct d; try (apply N; discriminate).
  apply number_eval; [discriminate|reflexivity|reflexivity].
Qed.

Lemma eval_zeros : forall k ds, eval_digits Hex (repeat "0"%char k ++ ds) = eval_digits Hex ds.
Proof. induction k as [|k IH]; intro ds; [reflexivity|]. cbn [repeat app eval_digits]. rewrite IH. change (converter Hex "0") with 0. lia. Qed.

(** the hexadecimal one too, with at least four digits *)
Theorem hexadecimal4_value : forall n, 0 <= n -> number Hex (hexadecimal4 n) n /\ (4 <= List.length (hexadecimal4 n))%nat.
Proof.
  intros n H. unfold hexadecimal4. split.
  2:{ rewrite app_length, repeat_length. lia. }
  set (d := N.to_hex_uint (Z.to_N n)).
  assert (E : Z.of_N (Pos.of_hex_uint d) = n).
  { unfold d. change (Pos.of_hex_uint (N.to_hex_uint (Z.to_N n))) with (N.of_hex_uint (N.to_hex_uint (Z.to_N n))).
    rewrite HexadecimalN.Unsigned.of_to. lia. }
  clearbody d. unfold T.
  assert (Hh : let h := list_ascii_of_string (HexadecimalString.NilZero.string_of_uint d) in
    h <> [] /\ digits_ok Hex h = true /\ eval_digits Hex h = n).
  { cbn zeta. destruct (match d with Hexadecimal.Nil => true | _ => false end) eqn:Z0.
    - destruct d; try discriminate. cbn in E. subst n. repeat split; discriminate.
    - assert (HexadecimalString.NilZero.string_of_uint d = HexadecimalString.NilEmpty.string_of_uint d) as -> by (destruct d; try discriminate; reflexivity).
      split; [destruct d; discriminate|]. split; [apply htext_ok|]. rewrite <- E, hval. reflexivity. }
  cbn zeta in Hh. revert Hh. generalize (list_ascii_of_string (HexadecimalString.NilZero.string_of_uint d)). intros h Hh.
  destruct Hh as (H1 & H2 & H3). apply number_eval.
  - intro K. apply app_eq_nil in K. destruct K as [_ K]. auto.
  - unfold digits_ok in H2. rewrite forallb_app, H2, andb_true_r.
    apply forallb_forall. intros c Hc. apply repeat_spec in Hc. subst. reflexivity.
  - rewrite eval_zeros. exact H3.
Qed.
