(** Proof_Sqrt.v -- the loop bound of src/prime.c:24, floor(sqrt((double)x)), computed in
    IEEE-754 binary64 with rounding to nearest even, is the integer square root of [x] for
    every non-negative int.  This is what allows Model_SymbolTable.prime_step to be written
    with [Z.sqrt].  Rests on the axioms of the standard library's real numbers. *)
From Coq Require Import ZArith Reals Lia Lra Psatz.
From Flocq Require Import Core.Core IEEE754.Binary IEEE754.Bits.
Open Scope Z_scope.

(** the C cast (double)x *)
Definition double_of_int (x : Z) : binary64 := binary_normalize 53 1024 eq_refl eq_refl BinarySingleNaN.mode_NE x 0 false.
(** the C library's sqrt, correctly rounded as IEEE-754 requires *)
Definition double_sqrt (d : binary64) : binary64 := b64_sqrt BinarySingleNaN.mode_NE d.

Local Notation fmt := (generic_format radix2 (SpecFloat.fexp 53 1024)).

Lemma small_fmt : forall m e, Z.abs m < 2 ^ 53 -> -1074 <= e -> fmt (F2R (Float radix2 m e)).
Proof.
  intros m e Hm He. change (SpecFloat.fexp 53 1024) with (FLT_exp (-1074) 53).
  apply generic_format_FLT. exists (Float radix2 m e); [reflexivity|exact Hm|exact He].
Qed.
Lemma int_fmt : forall m, Z.abs m < 2 ^ 53 -> fmt (IZR m).
Proof. intros m H. replace (IZR m) with (F2R (Float radix2 m 0)) by (unfold F2R; cbn; lra). apply small_fmt; lia. Qed.

Lemma double_of_int_exact : forall x, Z.abs x < 2 ^ 53 -> B2R 53 1024 (double_of_int x) = IZR x.
Proof.
  intros x H. unfold double_of_int.
  pose proof (binary_normalize_correct 53 1024 eq_refl eq_refl BinarySingleNaN.mode_NE x 0 false) as K.
  assert (F2R (Float radix2 x 0) = IZR x) as E by (unfold F2R; cbn; lra). rewrite E in K.
  assert (Generic_fmt.round radix2 (SpecFloat.fexp 53 1024) (BinarySingleNaN.round_mode BinarySingleNaN.mode_NE) (IZR x) = IZR x) as R.
  { apply round_generic; [apply BinarySingleNaN.valid_rnd_round_mode|apply int_fmt; exact H]. }
  rewrite R in K. rewrite Rlt_bool_true in K; [exact (proj1 K)|].
  rewrite <- abs_IZR. apply Rlt_trans with (IZR (2 ^ 53)); [apply IZR_lt; exact H|].
  change (IZR (2 ^ 53)) with (IZR (Zpower radix2 53)). rewrite IZR_Zpower by lia. apply bpow_lt. lia.
Qed.

Theorem C16_float_sqrt : forall x, 0 <= x < 2 ^ 31 ->
  Zfloor (B2R 53 1024 (double_sqrt (double_of_int x))) = Z.sqrt x.
Proof.
  intros x Hx. pose proof (Z.sqrt_spec x (proj1 Hx)) as [S1 S2]. set (s := Z.sqrt x) in *. cbn zeta in S1, S2.
  assert (Hs : 0 <= s <= 46340) by (split; [apply Z.sqrt_nonneg|nia]).
  unfold double_sqrt, b64_sqrt.
  match goal with |- Zfloor (B2R _ _ (Bsqrt _ _ ?p ?q ?n ?m ?d)) = _ => pose proof (Bsqrt_correct 53 1024 p q n m d) as [K _] end.
  rewrite K, double_of_int_exact by lia.
  apply Zfloor_imp. split.
  - apply round_ge_generic; [apply FLT_exp_valid; easy|apply BinarySingleNaN.valid_rnd_round_mode|apply int_fmt; lia|].
    rewrite <- (sqrt_square (IZR s)) by (apply IZR_le; lia). apply sqrt_le_1_alt. rewrite <- mult_IZR. apply IZR_le. lia.
  - apply Rle_lt_trans with (F2R (Float radix2 ((s + 1) * 2 ^ 20 - 1) (-20))).
    + apply round_le_generic; [apply FLT_exp_valid; easy|apply BinarySingleNaN.valid_rnd_round_mode|apply small_fmt; lia|].
      assert (F2R (Float radix2 ((s + 1) * 2 ^ 20 - 1) (-20)) = IZR (s + 1) - / 1048576)%R as ->.
      { unfold F2R. cbn [Fnum Fexp bpow]. rewrite minus_IZR, mult_IZR. change (IZR (Z.pow_pos radix2 20)) with 1048576%R. change (IZR (2 ^ 20)) with 1048576%R. field. }
      assert (1 <= IZR (s + 1) <= 46341)%R as B by (split; apply IZR_le; lia).
      rewrite <- (sqrt_square (IZR (s + 1) - / 1048576)) by lra. apply sqrt_le_1_alt.
      assert (IZR x <= IZR (s + 1) * IZR (s + 1) - 1)%R as U. { rewrite <- mult_IZR, <- minus_IZR. apply IZR_le. lia. }
      nra.
    + unfold F2R. cbn [Fnum Fexp bpow]. rewrite minus_IZR, mult_IZR. change (IZR (Z.pow_pos radix2 20)) with 1048576%R. change (IZR (2 ^ 20)) with 1048576%R. lra.
Qed.

(** the loop test  i <= floor(sqrt((double)x))  is the test of the model *)
Theorem C16_loop_test : forall x i, 0 <= x < 2 ^ 31 ->
  ((IZR i <= IZR (Zfloor (B2R 53 1024 (double_sqrt (double_of_int x)))))%R <-> i <= Z.sqrt x).
Proof. intros x i H. rewrite C16_float_sqrt by exact H. split; [apply le_IZR|apply IZR_le]. Qed.

Example C16_float_example : 0 <= 2147483647 < 2 ^ 31 /\ Z.sqrt 2147483647 = 46340.
Proof. split; [lia|reflexivity]. Qed.
