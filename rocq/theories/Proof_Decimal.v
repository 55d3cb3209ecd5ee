(** Proof_Decimal.v -- a report determines its line number and its message. *)
From Coq Require Import DecimalString DecimalZ DecimalFacts.
From Verif Require Import Base Proof_Base Spec_Report.

Lemma T_inj' : forall a b, T a = T b -> a = b.
Proof.
  unfold T. intros a b H. apply (f_equal string_of_list_ascii) in H.
  rewrite !string_of_list_ascii_of_string in H. exact H.
Qed.

Lemma decimal_inj : forall n m, decimal n = decimal m -> n = m.
Proof.
  intros n m H. apply T_inj' in H. rewrite <- (DecimalZ.of_to n), <- (DecimalZ.of_to m).
  assert (K : forall z, NilZero.int_of_string (NilZero.string_of_int (Z.to_int z)) = Some (Z.to_int z)).
  { intro z. apply NilZero.isi; destruct z; cbn; try discriminate.
    all: intro A; injection A as A; revert A; apply DecimalPos.Unsigned.to_uint_nonnil. }
  pose proof (K n) as A. pose proof (K m) as B. rewrite H in A. rewrite A in B. injection B as ->. reflexivity.
Qed.

Definition numeric (c : ascii) : Prop := c <> ":"%char.
Lemma uint_numeric : forall u, Forall numeric (T (NilEmpty.string_of_uint u)).
Proof. unfold T. induction u; cbn; constructor; auto; discriminate. Qed.

Lemma decimal_numeric : forall n, ~ In ":"%char (decimal n).
Proof.
  intros n H. assert (F : Forall numeric (decimal n)).
  { unfold decimal. destruct (Z.to_int n) as [u|u]; unfold NilZero.string_of_int, NilZero.string_of_uint.
    - destruct u; try apply uint_numeric. repeat constructor; discriminate.
    - unfold T. cbn. constructor; [discriminate|]. destruct u; try apply uint_numeric. repeat constructor; discriminate. }
  rewrite Forall_forall in F. apply (F _ H). reflexivity.
Qed.

Lemma split_at : forall (x : ascii) a b s t, ~ In x a -> ~ In x b -> a ++ x :: s = b ++ x :: t -> a = b /\ s = t.
Proof.
  intros x. induction a as [|c a IH]; intros [|d b] s t A B H; cbn in H.
  - injection H as ->. auto.
  - injection H as -> _. destruct B. left. reflexivity.
  - injection H as <- _. destruct A. left. reflexivity.
  - injection H as -> H. destruct (IH b s t) as [-> ->]; auto; intro K; [apply A|apply B]; right; exact K.
Qed.

Lemma Report_line : forall file n m line pos n' m' line' pos' out,
  Report file n m line pos out -> Report file n' m' line' pos' out -> n = n'.
Proof.
  intros file n m line pos n' m' line' pos' out (s & _ & E) (s' & _ & E'). rewrite E in E'.
  apply app_inv_head in E'. apply app_inv_head in E'.
  change (T ": ERROR: ") with (":"%char :: T " ERROR: ") in E'. cbn [app] in E'.
  apply split_at in E'; try apply decimal_numeric. apply decimal_inj. tauto.
Qed.

Lemma Report_inj : forall file n m line pos n' m' line' pos' out,
  Report file n m line pos out -> Report file n' m' line' pos' out -> ~ In ch_nl (T m) -> ~ In ch_nl (T m') -> n = n' /\ m = m'.
Proof.
  intros file n m line pos n' m' line' pos' out (s & _ & E) (s' & _ & E') N N'. rewrite E in E'.
  apply app_inv_head in E'. apply app_inv_head in E'.
  change (T ": ERROR: ") with (":"%char :: T " ERROR: ") in E'. cbn [app] in E'.
  apply split_at in E'; try apply decimal_numeric. destruct E' as [D E'].
  split; [apply decimal_inj; exact D|]. apply app_inv_head in E'.
  apply split_at in E'; auto. apply T_inj'. tauto.
Qed.
