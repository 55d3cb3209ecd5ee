(** Proof_Grammar.v -- the lines accepted by the machine are those of the grammar, and the
    others are rejected at the first token that leaves it. *)
From Verif Require Import Base Proof_Base Model_Opcode Model_Lexer Model_Parser Spec_Isa Spec_Text Spec_Asm
  Spec_Grammar Proof_Core Proof_Modes.

Lemma expr_tok_Expr : forall t, expr_tok t = true -> exists e, Expr t e.
Proof. intros [] H; try discriminate; eexists; constructor. Qed.

Ltac not_viable :=
  let more := fresh in let s := fresh in let H := fresh in
  intros (more & s & H); cbn [firstn app] in H; inversion H; subst;
  try match goal with K : Operand _ _ |- _ => inversion K; subst end;
  try match goal with K : Expr _ _ |- _ => inversion K; subst end;
  try discriminate.

Ltac not_line :=
  let s := fresh in let H := fresh in
  intros s H; inversion H; subst;
  try match goal with K : Operand _ _ |- _ => inversion K; subst end;
  try match goal with K : Expr _ _ |- _ => inversion K; subst end;
  try discriminate.

(** operands: a departure of the operand part is a departure of the line *)
Definition op_viable (l : list tok) : Prop := exists more o, Operand (l ++ more) o.
Definition op_departs (l : list tok) (i : nat) : Prop :=
  (i <= List.length l)%nat /\ op_viable (firstn i l) /\
  ((i < List.length l)%nat -> ~ op_viable (firstn (S i) l)) /\
  (i = List.length l -> forall o, ~ Operand l o).

Ltac op_yes more := exists more; eexists; cbn [firstn app]; (constructor || idtac); try constructor.
Ltac op_no :=
  let more := fresh in let o := fresh in let H := fresh in
  intros (more & o & H); cbn [firstn app] in H; inversion H; subst;
  try match goal with K : Expr _ _ |- _ => inversion K; subst end; try discriminate.
Ltac op_never :=
  let o := fresh in let H := fresh in
  intros o H; inversion H; subst;
  try match goal with K : Expr _ _ |- _ => inversion K; subst end; try discriminate.

Lemma op_departs_intro : forall l i, (i <= List.length l)%nat -> op_viable (firstn i l) ->
  ((i < List.length l)%nat -> ~ op_viable (firstn (S i) l)) ->
  (i = List.length l -> forall o, ~ Operand l o) -> op_departs l i.
Proof. intros. repeat split; auto. Qed.

Lemma op_viable_nil : op_viable [].
Proof. exists [], ONone. constructor. Qed.

Lemma comp_operand_departs : forall k l ok b i, comp_operand k l ok = inr (b, i) ->
  b = false /\ exists j, i = (k + j)%nat /\ op_departs l j.
Proof.
  intros k l ok b i H. unfold comp_operand in H.
  assert (V2 : forall e, expr_tok e = true -> op_viable [TOpen; e]).
  { intros e He. destruct (expr_tok_Expr e He) as (x & X). exists [TClose], (OInd x). constructor. exact X. }
  assert (V3 : forall e, expr_tok e = true -> op_viable [TOpen; e; TComma]).
  { intros e He. destruct (expr_tok_Expr e He) as (x & X). exists [TX; TClose], (OIndX x). constructor. exact X. }
  assert (V4 : forall e, expr_tok e = true -> op_viable [TOpen; e; TComma; TX]).
  { intros e He. destruct (expr_tok_Expr e He) as (x & X). exists [TClose], (OIndX x). constructor. exact X. }
  assert (V5 : forall e, expr_tok e = true -> op_viable [TOpen; e; TComma; TX; TClose]).
  { intros e He. destruct (expr_tok_Expr e He) as (x & X). exists [], (OIndX x). constructor. exact X. }
  assert (W3 : forall e, expr_tok e = true -> op_viable [TOpen; e; TClose]).
  { intros e He. destruct (expr_tok_Expr e He) as (x & X). exists [], (OInd x). constructor. exact X. }
  assert (W4 : forall e, expr_tok e = true -> op_viable [TOpen; e; TClose; TComma]).
  { intros e He. destruct (expr_tok_Expr e He) as (x & X). exists [TY], (OIndY x). constructor. exact X. }
  assert (W5 : forall e, expr_tok e = true -> op_viable [TOpen; e; TClose; TComma; TY]).
  { intros e He. destruct (expr_tok_Expr e He) as (x & X). exists [], (OIndY x). constructor. exact X. }
  assert (H2 : forall e, expr_tok e = true -> op_viable [THash; e]).
  { intros e He. destruct (expr_tok_Expr e He) as (x & X). exists [], (OImm x). constructor. exact X. }
  assert (D1 : forall e, expr_tok e = true -> op_viable [e]).
  { intros e He. destruct (expr_tok_Expr e He) as (x & X). exists [], (ODir x). constructor. exact X. }
  assert (D2 : forall e, expr_tok e = true -> op_viable [e; TComma]).
  { intros e He. destruct (expr_tok_Expr e He) as (x & X). exists [TX], (ODirX x). constructor. exact X. }
  assert (O1 : op_viable [TOpen]) by (exists [TNumber 0; TClose], (OInd (Num 0)); constructor; constructor).
  assert (O2 : op_viable [THash]) by (exists [TNumber 0], (OImm (Num 0)); constructor; constructor).
  assert (O3 : op_viable [TA]) by (exists [], OAcc; constructor).
  Ltac finish_op j := split; [reflexivity|]; exists j; split; [lia|];
    apply op_departs_intro; [cbn [List.length]; lia|cbn [firstn]; auto using op_viable_nil
      |cbn [List.length]; intro; try lia; op_no|cbn [List.length]; intro; try lia; op_never].
  Ltac run_op H :=
    match type of H with
    | inl _ = inr _ => discriminate H
    | bad _ = inr _ => unfold bad in H; injection H as <- <-;
        first [finish_op 0%nat | finish_op 1%nat | finish_op 2%nat | finish_op 3%nat | finish_op 4%nat | finish_op 5%nat]
    | (match ?x with _ => _ end) = inr _ => destruct x eqn:?; cbn [expr_tok] in *; run_op H
    end.
  destruct l as [|t r]; [discriminate|].
  run_op H.
Qed.

Definition op_junk (l : list tok) : Prop := exists t e r junk, Expr t e /\ (r = TX \/ r = TY) /\ junk <> [] /\
  l = t :: TComma :: r :: junk.

Lemma comp_operand_accepts : forall k l ok c, comp_operand k l ok = inl c ->
  (exists o, Operand l o) \/ op_junk l.
Proof.
  intros k l ok c H. unfold comp_operand in H.
  Ltac ok_op := left; eexists; econstructor; eauto.
  Ltac acc_op H :=
    match type of H with
    | bad _ = inl _ => discriminate H
    | inl _ = inl _ => idtac
    | (match ?x with _ => _ end) = inl _ => destruct x eqn:?; cbn [expr_tok] in *; try discriminate; acc_op H
    | inr _ = inl _ => discriminate H
    end.
  acc_op H; try (left; eexists; solve [repeat constructor]);
    repeat match goal with K : expr_tok _ = true |- _ => apply expr_tok_Expr in K; destruct K as (? & K) end;
    try (left; eexists; solve [repeat (eassumption || econstructor)]).
  all: match goal with |- (exists o, Operand (?t :: TComma :: ?r :: ?junk) o) \/ _ =>
         destruct junk as [|j0 junk]; [left; eexists; solve [repeat (eassumption || econstructor)]
           |right; exists t; eexists; exists r, (j0 :: junk); split; [solve [repeat (eassumption || econstructor)]|];
            split; [auto|split; [discriminate|reflexivity]]] end.
Qed.

Lemma viable_mn : forall m x, viable (TMnemonic m :: x) <-> op_viable x.
Proof.
  intros m x. split.
  - intros (more & s & H). inversion H; subst. exists more, o. assumption.
  - intros (more & o & H). exists more. eexists. cbn [app]. constructor. exact H.
Qed.

Lemma viable_lab_mn : forall n m x, viable (TLabel n :: TMnemonic m :: x) <-> op_viable x.
Proof.
  intros n m x. split.
  - intros (more & s & H). inversion H; subst. exists more, o. assumption.
  - intros (more & o & H). exists more. eexists. cbn [app]. constructor. exact H.
Qed.

Lemma departs_mn : forall m l j, op_departs l j -> departs_at (TMnemonic m :: l) (1 + j).
Proof.
  intros m l j (A & B & C & D). unfold departs_at. cbn [List.length firstn Nat.add]. split; [lia|].
  split; [apply viable_mn; exact B|]. split.
  - intros H K. apply viable_mn in K. apply C; [lia|exact K].
  - intros H s K. inversion K; subst. eapply D; [lia|eassumption].
Qed.

Lemma departs_lab_mn : forall n m l j, op_departs l j -> departs_at (TLabel n :: TMnemonic m :: l) (2 + j).
Proof.
  intros n m l j (A & B & C & D). unfold departs_at. cbn [List.length firstn Nat.add]. split; [lia|].
  split; [apply viable_lab_mn; exact B|]. split.
  - intros H K. apply viable_lab_mn in K. apply C; [lia|exact K].
  - intros H s K. inversion K; subst. eapply D; [lia|eassumption].
Qed.

Theorem compile_departs : forall ts b i, compile ts = inr (b, i) ->
  departs_at ts i /\ (if b then "illegal base" else "illegal syntax")%string = syntax_message ts.
Proof.
  intros ts b i H. unfold compile in H.
  assert (V0 : viable []) by (exists [], SEmpty; constructor).
  assert (L1 : forall n, viable [TLabel n]) by (intro n; exists [], (SLabel n); constructor).
  assert (L2 : forall n, viable [TLabel n; TEqual]) by (intro n; exists [TNumber 0], (SConst n 0); constructor).
  assert (L3 : forall n v, viable [TLabel n; TEqual; TNumber v]) by (intros n v; exists [], (SConst n v); constructor).
  assert (M2 : forall n, viable [TLabel n; TDirective DEqu]) by (intro n; exists [TNumber 0], (SConst n 0); constructor).
  assert (M3 : forall n v, viable [TLabel n; TDirective DEqu; TNumber v]) by (intros n v; exists [], (SConst n v); constructor).
  assert (D1 : viable [TDirective DDefine]) by (exists [TLabel []; TNumber 0], (SConst [] 0); constructor).
  assert (D2 : forall n, viable [TDirective DDefine; TLabel n]) by (intro n; exists [TNumber 0], (SConst n 0); constructor).
  assert (D3 : forall n v, viable [TDirective DDefine; TLabel n; TNumber v]) by (intros n v; exists [], (SConst n v); constructor).
  assert (O1 : viable [TDirective DOrg]) by (exists [TNumber 0], (SOrg 0); constructor).
  assert (O2 : forall v, viable [TDirective DOrg; TNumber v]) by (intro v; exists [], (SOrg v); constructor).
  assert (E1 : viable [TDirective DEnd]) by (exists [], SEnd; constructor).
  assert (S1 : viable [TStar]) by (exists [TEqual; TNumber 0], (SOrg 0); constructor).
  assert (S2 : viable [TStar; TEqual]) by (exists [TNumber 0], (SOrg 0); constructor).
  assert (S3 : forall v, viable [TStar; TEqual; TNumber v]) by (intro v; exists [], (SOrg v); constructor).
  Ltac done_dep := split; [|reflexivity]; unfold departs_at; cbn [List.length firstn];
    split; [lia|split; [auto|split; [intro; try lia; not_viable|intro; try lia; not_line]]].
  Ltac run_dep H :=
    match type of H with
    | inl _ = inr _ => discriminate H
    | bad _ = inr _ => unfold bad in H; injection H as <- <-; done_dep
    | inr _ = inr _ => injection H as <- <-; done_dep
    | comp_operand 1 _ _ = inr _ => apply comp_operand_departs in H; destruct H as (-> & j & -> & H);
        split; [apply departs_mn; exact H|reflexivity]
    | comp_operand 2 _ _ = inr _ => apply comp_operand_departs in H; destruct H as (-> & j & -> & H);
        split; [apply departs_lab_mn; exact H|reflexivity]
    | (match ?x with _ => _ end) = inr _ => destruct x; run_dep H
    end.
  run_dep H.
Qed.

Theorem compile_accepts : forall ts c, compile ts = inl c -> (exists s, Line ts s) \/ trailing_junk ts.
Proof.
  intros ts c H. unfold compile in H.
  Ltac acc_dep H :=
    match type of H with
    | inr _ = inl _ => discriminate H
    | bad _ = inl _ => discriminate H
    | inl _ = inl _ => left; eexists; solve [constructor]
    | comp_operand ?k _ _ = inl _ => apply comp_operand_accepts in H
    | (match ?x with _ => _ end) = inl _ => destruct x; acc_dep H
    end.
  acc_dep H; destruct H as [(o & H)|(t & e & r & junk & X & R & J & ->)].
  - left. eexists. constructor. exact H.
  - right. exists [TLabel name]. do 5 eexists. split; [right; eauto|]. split; [exact X|]. split; [exact R|]. split; [exact J|]. reflexivity.
  - left. eexists. constructor. exact H.
  - right. exists []. do 5 eexists. split; [left; reflexivity|]. split; [exact X|]. split; [exact R|]. split; [exact J|]. reflexivity.
Qed.

(** lines of the grammar are accepted, the extra form too *)
Theorem Line_compiles : forall ts s, Line ts s -> exists c, compile ts = inl c.
Proof.
  intros ts s H. destruct (compile ts) as [c|[b i]] eqn:E; [eauto|].
  exfalso. destruct (compile_departs _ _ _ E) as ((A & B & C & D) & _).
  destruct (Nat.eq_dec i (List.length ts)) as [K|K].
  - exact (D K s H).
  - apply C; [lia|]. exists (skipn (S i) ts), s. rewrite firstn_skipn. exact H.
Qed.

Theorem junk_compiles : forall ts, trailing_junk ts -> exists c, compile ts = inl c.
Proof.
  intros ts (front & m & t & e & r & junk & F & X & R & J & ->).
  destruct F as [-> |(n & ->)]; cbn [app compile]; destruct X; cbn [comp_operand expr_tok];
    destruct R as [-> | ->]; eexists; reflexivity.
Qed.

Lemma viable_prefix : forall ts i j, (i <= j)%nat -> viable (firstn j ts) -> viable (firstn i ts).
Proof.
  intros ts i j H (more & s & L).
  assert (firstn j ts = firstn i ts ++ skipn i (firstn j ts)) as E.
  { rewrite <- (firstn_skipn i (firstn j ts)) at 1. rewrite firstn_firstn. f_equal. f_equal. lia. }
  rewrite E, <- app_assoc in L. exists (skipn i (firstn j ts) ++ more), s. exact L.
Qed.

(** the place where a line departs from the grammar is unique *)
Theorem departs_unique : forall ts i j, departs_at ts i -> departs_at ts j -> i = j.
Proof.
  assert (W : forall ts i j, departs_at ts i -> departs_at ts j -> (i < j)%nat -> False).
  { intros ts i j (A1 & A2 & A3 & A4) (B1 & B2 & B3 & B4) H. apply A3; [lia|].
    eapply viable_prefix; [|exact B2]. lia. }
  intros ts i j A B. destruct (Nat.lt_trichotomy i j) as [H|[H|H]]; [exfalso|exact H|exfalso]; eauto.
Qed.
