(** Proof_Prime.v -- is_prime and next_prime of the model compute what they should. *)
From Coq Require Import Znumtheory.
From Verif Require Import Base Proof_Base Model_Opcode Model_SymbolTable Spec_Table.

Lemma prime_divisors_small : forall x, 1 < x ->
  (forall d, 2 <= d <= Z.sqrt x -> ~ (d | x)) -> prime x.
Proof.
  intros x Hx H. apply prime_alt. split; [exact Hx|]. intros n Hn [m Hm].
  assert (0 < m) by nia.
  destruct (Z_le_gt_dec n m) as [L|L].
  - apply (H n); [|exists m; lia]. split; [lia|].
    apply Z.sqrt_le_square; try lia. nia.
  - apply (H m); [|exists n; lia]. split; [nia|].
    apply Z.sqrt_le_square; try lia. nia.
Qed.

Lemma odd_divisor : forall x d, Z.rem x 2 <> 0 -> (d | x) -> Z.odd d = true.
Proof.
  intros x d Hx [q ->]. rewrite <- Z.negb_even. destruct (Z.even d) eqn:E; [|reflexivity].
  exfalso. apply Hx. apply Z.even_spec in E. destruct E as [k ->].
  replace (q * (2 * k)) with (q * k * 2) by lia. apply Z.rem_mul. lia.
Qed.

(** ** is_prime *)
Lemma is_prime_loop : forall x, 4 <= x <= INT_MAX -> Z.rem x 2 <> 0 ->
  exists found, loop 65536 (prime_step x) 3 = inr found /\ (found = false <-> prime x).
Proof.
  intros x Hx Hodd. unfold INT_MAX in Hx.
  set (I := fun i => 3 <= i /\ Z.odd i = true /\ i <= Z.sqrt x + 2 /\
                     forall d, 2 <= d < i -> ~ (d | x)).
  assert (S1 : Z.sqrt x <= 46340).
  { assert (Z.sqrt x < 46341); [|lia]. apply Z.sqrt_lt_square; lia. }
  assert (S2 : 2 <= Z.sqrt x). { apply Z.sqrt_le_square; lia. }
  assert (I0 : I 3).
  { unfold I. repeat split; try lia. intros d Hd D.
    assert (d = 2) as -> by lia. apply odd_divisor in D; auto. discriminate D. }
  assert (Istep : forall i i', I i -> prime_step x i = inl i' -> I i' /\ Z.sqrt x + 2 - i' < Z.sqrt x + 2 - i).
  { intros i i' (H3 & Ho & Hs & Hd) E. unfold prime_step in E.
    destruct (Z.leb_spec i (Z.sqrt x)); [|discriminate].
    destruct (Z.eqb_spec (x mod i) 0) as [|N]; [discriminate|]. injection E as <-.
    split; [|lia]. unfold I. split; [lia|]. split; [rewrite Z.odd_add; cbn; rewrite Ho; reflexivity|].
    split; [lia|]. intros d Hd' D.
    assert (d < i \/ d = i \/ d = i + 1) as [K|[->| ->]] by lia.
    - apply (Hd d); auto; lia.
    - apply N. apply Z.mod_divide; auto; lia.
    - apply odd_divisor in D; auto. rewrite Z.odd_add, Ho in D. discriminate D. }
  destruct (loop_stops _ _ (prime_step x) I (fun i => Z.sqrt x + 2 - i) Istep) with (p := 65536%positive) (s := 3)
    as [r Er].
  - intros i (_ & _ & K & _). lia.
  - exact I0.
  - lia.
  - exists r. split; [exact Er|].
    pose proof (loop_invariant _ _ (prime_step x) I (fun r => r = false <-> prime x)) as L.
    specialize (L (fun s s' h e => proj1 (Istep s s' h e))).
    assert (Q : forall s r, I s -> prime_step x s = inr r -> (r = false <-> prime x)).
    { intros i f (H3 & Ho & Hs & Hd) E. unfold prime_step in E.
      destruct (Z.leb_spec i (Z.sqrt x)) as [K|K].
      - destruct (Z.eqb_spec (x mod i) 0) as [D|]; [|discriminate]. injection E as <-.
        split; [discriminate|]. intro P. exfalso.
        assert (i < x). { pose proof (Z.sqrt_lt_lin x). lia. }
        apply prime_alt in P. destruct P as [_ P]. apply (P i); [lia|].
        apply Z.mod_divide; lia.
      - injection E as <-. split; [|auto]. intros _. apply prime_divisors_small; [lia|].
        intros d Hd'. apply Hd. lia. }
    specialize (L Q 65536%positive 3 I0). rewrite Er in L. exact L.
Qed.

Lemma prime_lt_2 : forall x, x < 2 -> ~ prime x.
Proof. intros x H P. apply prime_ge_2 in P. lia. Qed.

Theorem is_prime_spec : forall x, x <= INT_MAX ->
  exists b, is_prime x = Ret b /\ (b = true <-> prime x).
Proof.
  intros x Hx. unfold is_prime.
  destruct (Z.ltb_spec x 2) as [L|L].
  { exists false. split; [reflexivity|]. split; [discriminate|]. intro P. exfalso. revert P. apply prime_lt_2, L. }
  destruct (Z.ltb_spec x 4) as [L4|L4].
  { exists true. split; [reflexivity|]. split; auto. intros _.
    assert (x = 2 \/ x = 3) as [->| ->] by lia; [apply prime_2|apply prime_3]. }
  destruct (Z.eqb_spec (Z.rem x 2) 0) as [E|E].
  { exists false. split; [reflexivity|]. split; [discriminate|]. intro P. exfalso.
    apply prime_alt in P. destruct P as [_ P]. apply (P 2); [lia|].
    apply Z.rem_divide; auto; lia. }
  destruct (is_prime_loop x (conj L4 Hx) E) as (f & -> & H).
  exists (negb f). split; [reflexivity|]. destruct f; cbn; intuition congruence.
Qed.

(** ** next_prime *)
Lemma int_max_prime : prime INT_MAX.
Proof.
  destruct (is_prime_spec INT_MAX) as (b & E & H); [lia|].
  apply H. assert (E' : is_prime INT_MAX = Ret true) by (vm_compute; reflexivity). congruence.
Qed.

Lemma next_prime_partial_aux : forall fuel x, INT_MIN <= x ->
  match loop fuel next_prime_step x with
  | inr (Ret p) => least_prime_above x p /\ p <= INT_MAX
  | inr (Undef u) => INT_MAX <= x
  | inr Diverge => False
  | inl s => x <= s
  end.
Proof.
  intros fuel x Hx.
  set (I := fun s => x <= s /\ (x <= INT_MAX -> s <= INT_MAX) /\ (INT_MAX < x -> s = x) /\
                     (x < s -> s <= INT_MAX /\ x < INT_MAX) /\
                     forall q, x < q <= s -> ~ prime q).
  pose proof (loop_invariant _ _ next_prime_step I
    (fun m => match m with Ret p => least_prime_above x p /\ p <= INT_MAX
                         | Undef u => INT_MAX <= x | Diverge => False end)) as L.
  assert (A : forall s s', I s -> next_prime_step s = inl s' -> I s').
  { intros s s' (H1 & H2 & H3 & H4 & H5) E. unfold next_prime_step in E.
    destruct (int_of (s + 1)) as [x1| |] eqn:Ei; try discriminate.
    apply int_of_ret in Ei. destruct Ei as [Ei ->].
    destruct (is_prime_spec (s + 1)) as (b & Eb & Hb); [lia|]. rewrite Eb in E.
    destruct b; [discriminate|]. injection E as <-.
    unfold I. repeat split; try lia. intros q Hq P.
    assert (q <= s \/ q = s + 1) as [K| ->] by lia; [apply (H5 q); auto; lia|].
    apply Hb in P. discriminate P. }
  assert (B : forall s m, I s -> next_prime_step s = inr m ->
     match m with Ret p => least_prime_above x p /\ p <= INT_MAX
                | Undef u => INT_MAX <= x | Diverge => False end).
  { intros s m (H1 & H2 & H3 & H4 & H5) E. unfold next_prime_step in E.
    destruct (int_of (s + 1)) as [x1|u|] eqn:Ei.
    - apply int_of_ret in Ei. destruct Ei as [Ei ->].
      destruct (is_prime_spec (s + 1)) as (b & Eb & Hb); [lia|]. rewrite Eb in E.
      destruct b; [|discriminate]. injection E as <-.
      split; [|lia]. split; [lia|]. split; [apply Hb; reflexivity|].
      intros q Hq. apply H5. lia.
    - injection E as <-. unfold int_of in Ei.
      destruct (in_range INT_MIN (s + 1) INT_MAX) eqn:R; [discriminate|].
      apply in_range_false in R.
      destruct (Z_lt_le_dec x INT_MAX) as [K|K]; [|exact K].
      exfalso. assert (s = INT_MAX) as -> by (unfold INT_MIN, INT_MAX in *; lia).
      apply (H5 INT_MAX); [lia|]. apply int_max_prime.
    - unfold int_of in Ei. destruct (in_range _ _ _); discriminate. }
  specialize (L A B fuel x).
  destruct (loop fuel next_prime_step x) as [s|m]; [|apply L].
  - apply L. unfold I. repeat split; try lia.
  - unfold I. repeat split; try lia.
Qed.

Lemma next_prime_within_ret : forall fuel x p, INT_MIN <= x -> next_prime_within fuel x = Ret p ->
  least_prime_above x p /\ p <= INT_MAX.
Proof.
  intros fuel x p Hx E. unfold next_prime_within in E.
  pose proof (next_prime_partial_aux fuel x Hx) as K.
  destruct (loop fuel next_prime_step x) as [s|m]; [discriminate|]. subst m. exact K.
Qed.

Lemma next_prime_ret : forall x p, INT_MIN <= x -> next_prime x = Ret p ->
  least_prime_above x p /\ p <= INT_MAX.
Proof. intros x p Hx E. unfold next_prime in E. eapply next_prime_within_ret; eauto. Qed.

Lemma next_prime_within_defined : forall fuel x, INT_MIN <= x < INT_MAX -> INT_MAX - x < Z.pos fuel ->
  exists p, next_prime_within fuel x = Ret p.
Proof.
  intros fuel x Hx Hf. unfold next_prime_within.
  pose proof (next_prime_partial_aux fuel x (proj1 Hx)) as K.
  destruct (loop_stops _ _ next_prime_step (fun s => INT_MIN <= s <= INT_MAX) (fun s => INT_MAX - s))
    with (p := fuel) (s := x) as [r Er].
  - intros s s' H E. unfold next_prime_step in E.
    destruct (int_of (s + 1)) as [x1| |] eqn:Ei; try discriminate.
    apply int_of_ret in Ei. destruct Ei as [Ei ->].
    destruct (is_prime (s + 1)) as [[]| |]; try discriminate. injection E as <-. lia.
  - intros s H. lia.
  - lia.
  - exact Hf.
  - rewrite Er in *. destruct r as [p|u|]; [eauto|lia|tauto].
Qed.

Lemma next_prime_defined : forall x, INT_MIN <= x < INT_MAX -> exists p, next_prime x = Ret p.
Proof.
  intros x Hx. unfold next_prime. apply next_prime_within_defined; auto.
  unfold INT_MIN, INT_MAX in *. lia.
Qed.

