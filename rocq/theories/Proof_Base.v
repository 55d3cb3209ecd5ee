(** Proof_Base.v -- lemmas about Base.v used by the proofs. *)
From Verif Require Import Base.

(** ** The outcome monad *)
Lemma bind_ret : forall A B (m : M A) (f : A -> M B) b,
  bind m f = Ret b -> exists a, m = Ret a /\ f a = Ret b.
Proof. intros A B [a|u|] f b H; cbn in H; try discriminate. eauto. Qed.

Ltac inv_bind H :=
  let a := fresh "a" in let E := fresh "E" in let H' := fresh "H" in
  apply bind_ret in H; destruct H as (a & E & H').

(** ** Bytes *)
Lemma code_range : forall c, 0 <= code c < 256.
Proof.
  intro c. unfold code. destruct c as [[] [] [] [] [] [] [] []]; vm_compute; split; congruence.
Qed.

Lemma chr_code : forall c, chr (code c) = c.
Proof. intro c. unfold chr, code. rewrite N2Z.id. apply ascii_N_embedding. Qed.

Lemma code_chr : forall z, 0 <= z < 256 -> code (chr z) = z.
Proof.
  intros z H. unfold code, chr.
  rewrite N_ascii_embedding by lia. lia.
Qed.

Lemma code_inj : forall a b, code a = code b -> a = b.
Proof. intros a b H. rewrite <- (chr_code a), <- (chr_code b), H. reflexivity. Qed.

Lemma eqb_code : forall a b, Ascii.eqb a b = (code a =? code b).
Proof.
  intros a b. destruct (Ascii.eqb_spec a b) as [->|N].
  - symmetry. apply Z.eqb_refl.
  - symmetry. apply Z.eqb_neq. intro E. apply N, code_inj, E.
Qed.

Lemma schar_small : forall c, code c < 128 -> schar c = code c.
Proof. intros c H. unfold schar. destruct (Z.ltb_spec (code c) 128); lia. Qed.

Lemma schar_range : forall c, -128 <= schar c <= 127.
Proof.
  intros c. pose proof (code_range c). unfold schar. destruct (Z.ltb_spec (code c) 128); lia.
Qed.

Lemma schar_eof : forall c, (schar c =? EOF) = (code c =? 255).
Proof.
  intro c. unfold schar, EOF. pose proof (code_range c).
  destruct (Z.ltb_spec (code c) 128); destruct (Z.eqb_spec (code c) 255);
    destruct (Z.eqb_spec (code c) (-1)); try lia; apply Z.eqb_neq || apply Z.eqb_eq; lia.
Qed.

Lemma in_range_spec : forall lo x hi, in_range lo x hi = true <-> lo <= x <= hi.
Proof. intros. unfold in_range. rewrite andb_true_iff, !Z.leb_le. tauto. Qed.

Lemma in_range_false : forall lo x hi, in_range lo x hi = false <-> ~ (lo <= x <= hi).
Proof. intros. rewrite <- in_range_spec. destruct (in_range lo x hi); intuition congruence. Qed.

(** ** Texts *)
Lemma text_eqb_eq : forall a b, text_eqb a b = true <-> a = b.
Proof.
  induction a as [|x a IH]; destruct b as [|y b]; cbn; try (split; congruence).
  rewrite andb_true_iff, Ascii.eqb_eq, IH. split; [intros [-> ->]; reflexivity|].
  intro E; injection E; auto.
Qed.

Lemma text_eqb_refl : forall a, text_eqb a a = true.
Proof. intro a. apply text_eqb_eq. reflexivity. Qed.

Lemma text_eqb_neq : forall a b, text_eqb a b = false <-> a <> b.
Proof.
  intros. rewrite <- text_eqb_eq. destruct (text_eqb a b); intuition congruence.
Qed.

Lemma text_eqb_sym : forall a b, text_eqb a b = text_eqb b a.
Proof.
  intros. destruct (text_eqb b a) eqn:E.
  - apply text_eqb_eq in E. subst. apply text_eqb_refl.
  - apply text_eqb_neq. apply text_eqb_neq in E. congruence.
Qed.

Lemma text_dec : forall a b : text, {a = b} + {a <> b}.
Proof.
  intros. destruct (text_eqb a b) eqn:E; [left; apply text_eqb_eq|right; apply text_eqb_neq]; auto.
Qed.

(** ** Arrays *)
Lemma get_in : forall A (l : list A) i, 0 <= i < Z.of_nat (List.length l) ->
  exists a, get l i = Ret a /\ nth_error l (Z.to_nat i) = Some a.
Proof.
  intros A l i H. unfold get. destruct (Z.ltb_spec i 0); [lia|].
  destruct (nth_error l (Z.to_nat i)) eqn:E; eauto.
  apply nth_error_None in E. lia.
Qed.

Lemma get_ret : forall A (l : list A) i a, get l i = Ret a <->
  (0 <= i /\ nth_error l (Z.to_nat i) = Some a).
Proof.
  intros. unfold get. destruct (Z.ltb_spec i 0); [split; [discriminate|lia]|].
  destruct (nth_error l (Z.to_nat i)) as [b|]; split; intro K.
  - injection K as ->. auto.
  - destruct K as [_ K]. congruence.
  - discriminate.
  - destruct K; discriminate.
Qed.

Lemma upd_length : forall A (l : list A) i x, List.length (upd l i x) = List.length l.
Proof. induction l; destruct i; cbn; intros; auto. Qed.

Lemma nth_upd_same : forall A (l : list A) i x, (i < List.length l)%nat ->
  nth_error (upd l i x) i = Some x.
Proof. induction l; destruct i; cbn; intros; try lia; auto. apply IHl. lia. Qed.

Lemma nth_upd_other : forall A (l : list A) i j x, i <> j ->
  nth_error (upd l i x) j = nth_error l j.
Proof. induction l; destruct i, j; cbn; intros; auto; try congruence. Qed.

Lemma put_ret : forall A (l : list A) i x l', put l i x = Ret l' <->
  (0 <= i < Z.of_nat (List.length l) /\ l' = upd l (Z.to_nat i) x).
Proof.
  intros. unfold put. destruct (in_range 0 i (Z.of_nat (List.length l) - 1)) eqn:E.
  - apply in_range_spec in E. split; [intro H; injection H; intros; subst; split; auto; lia|].
    intros [_ ->]. reflexivity.
  - apply in_range_false in E. split; [discriminate|]. intros [H _]. lia.
Qed.

(** ** Integers *)
Lemma int_of_ret : forall z x, int_of z = Ret x <-> (INT_MIN <= z <= INT_MAX /\ x = z).
Proof.
  intros. unfold int_of. destruct (in_range INT_MIN z INT_MAX) eqn:E.
  - apply in_range_spec in E. split; [intro H; injection H; auto|intros [_ ->]; auto].
  - apply in_range_false in E. split; [discriminate|tauto].
Qed.

Lemma int_of_ok : forall z, INT_MIN <= z <= INT_MAX -> int_of z = Ret z.
Proof. intros. apply int_of_ret. auto. Qed.

(** ** Loops *)
Lemma loop_invariant : forall S R (step : S -> S + R) (I : S -> Prop) (Q : R -> Prop),
  (forall s s', I s -> step s = inl s' -> I s') ->
  (forall s r, I s -> step s = inr r -> Q r) ->
  forall p s, I s ->
  match loop p step s with inl s' => I s' | inr r => Q r end.
Proof.
  intros S R step I Q Hi Hq.
  induction p as [q IH|q IH|]; cbn; intros s Hs.
  - destruct (step s) as [s0|r] eqn:E; [|eauto].
    apply Hi in E; auto. pose proof (IH s0 E) as H.
    destruct (loop q step s0) as [s'|r]; auto. apply IH, H.
  - pose proof (IH s Hs) as H. destruct (loop q step s) as [s'|r]; auto. apply IH, H.
  - destruct (step s) eqn:E; eauto.
Qed.

(** every turn decreases the measure *)
Lemma loop_measure : forall S R (step : S -> S + R) (I : S -> Prop) (mu : S -> Z),
  (forall s s', I s -> step s = inl s' -> I s' /\ mu s' < mu s) ->
  forall p s, I s ->
  match loop p step s with inl s' => I s' /\ mu s' + Z.pos p <= mu s | inr _ => True end.
Proof.
  intros S R step I mu Hd.
  induction p as [q IH|q IH|]; cbn [loop]; intros s Hs.
  - destruct (step s) as [s0|r] eqn:E; [|eauto].
    destruct (Hd _ _ Hs E) as [H0 Hm]. pose proof (IH s0 H0) as H.
    destruct (loop q step s0) as [s1|r]; auto. destruct H as [H1 Hm1].
    pose proof (IH s1 H1) as H2. destruct (loop q step s1) as [s2|r]; auto.
    destruct H2. split; auto. lia.
  - pose proof (IH s Hs) as H.
    destruct (loop q step s) as [s1|r]; auto. destruct H as [H1 Hm1].
    pose proof (IH s1 H1) as H2. destruct (loop q step s1) as [s2|r]; auto.
    destruct H2. split; auto. lia.
  - destruct (step s) as [s0|r] eqn:E; auto. destruct (Hd _ _ Hs E). split; auto. lia.
Qed.

Lemma loop_stops : forall S R (step : S -> S + R) (I : S -> Prop) (mu : S -> Z),
  (forall s s', I s -> step s = inl s' -> I s' /\ mu s' < mu s) ->
  (forall s, I s -> 0 <= mu s) ->
  forall p s, I s -> mu s < Z.pos p -> exists r, loop p step s = inr r.
Proof.
  intros S R step I mu Hd H0 p s Hs Hp.
  pose proof (loop_measure S R step I mu Hd p s Hs) as H.
  destruct (loop p step s) as [s'|r]; [|eauto]. destruct H as [H1 H2].
  specialize (H0 _ H1). lia.
Qed.
