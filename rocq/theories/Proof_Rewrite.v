(** Proof_Rewrite.v -- programs whose statements lead to equivalent states of the reference. *)
From Verif Require Import Base Proof_Base Model_Main Spec_Isa Spec_Text Spec_Asm Spec_Diag Spec_Prog Spec_Report Spec_Edit
  Proof_Prog.

Definition peq (p p' : placed) : Prop := pl_item p = pl_item p' /\ pl_bytes p = pl_bytes p'.

Section Avoid.
Variable X : text -> Prop.

Definition plain_expr (x : option expr) : Prop := forall n, x = Some (Lab n) -> ~ X n.
Definition eq_env (e e' : env) : Prop := forall n, ~ X n -> lookup e n = lookup e' n.

Record deq (st st' : dstate) : Prop := {
  q_addr : d_addr st = d_addr st';
  q_env : eq_env (d_env st) (d_env st');
  q_done : Forall2 peq (d_done st) (d_done st');
  q_plain : Forall (fun p => plain_expr (it_expr (pl_item p))) (d_done st) }.

Definition dsame (d d' : diagnosis) : Prop :=
  match d, d' with
  | DOk st code, DOk st' code' => code = code' /\ writes AsBuilt st = writes AsBuilt st'
  | DError _ m _, DError _ m' _ => m = m'
  | _, _ => False
  end.

Definition avoids (s : stmt) : Prop := forall n, mentions s n -> ~ X n.

Lemma eval_eq : forall e e' x, eq_env e e' -> plain_expr (Some x) -> eval e x = eval e' x.
Proof. intros e e' [v|n] E P; [reflexivity|]. cbn. apply E. apply P. reflexivity. Qed.

Lemma encode_eq : forall r e e' it, eq_env e e' -> plain_expr (it_expr it) -> encode_operand r e it = encode_operand r e' it.
Proof.
  intros r e e' it E P. unfold encode_operand. destruct (it_expr it) as [x|]; [|reflexivity].
  rewrite (eval_eq e e' x E P). reflexivity.
Qed.

Lemma peq_first : forall l l', Forall2 peq l l' -> forall pos, first_writes pos l = first_writes pos l'.
Proof.
  induction 1 as [|p p' l l' [I B] H IH]; intro pos; [reflexivity|]. cbn [first_writes]. unfold pl_end. rewrite I, B, IH. reflexivity.
Qed.

Lemma peq_last : forall e e' l l', eq_env e e' -> Forall2 peq l l' -> Forall (fun p => plain_expr (it_expr (pl_item p))) l ->
  last_writes AsBuilt e l = last_writes AsBuilt e' l'.
Proof.
  intros e e' l l' E H. induction H as [|p p' l l' [I B] H IH]; intro F; [reflexivity|]. inversion F as [|? ? P F']; subst.
  cbn [last_writes]. rewrite (encode_eq AsBuilt e e' _ E P), I, B, IH by exact F'. reflexivity.
Qed.

Lemma peq_complete : forall e e' l l', eq_env e e' -> Forall2 peq l l' -> Forall (fun p => plain_expr (it_expr (pl_item p))) l ->
  match complete AsBuilt e l, complete AsBuilt e' l' with
  | inl c, inl c' => c = c' | inr (_, m), inr (_, m') => m = m' | _, _ => False end.
Proof.
  intros e e' l l' E H. induction H as [|p p' l l' [I B] H IH]; intro F; [reflexivity|]. inversion F as [|? ? P F']; subst.
  cbn [complete]. rewrite (encode_eq AsBuilt e e' _ E P).
  assert (V : (match it_expr (pl_item p) with Some x => eval e x | None => None end) = (match it_expr (pl_item p') with Some x => eval e' x | None => None end)).
  { rewrite <- I. destruct (it_expr (pl_item p)) as [x|]; [|reflexivity]. apply eval_eq; auto. }
  rewrite V, I, B. specialize (IH F').
  destruct (match pl_bytes p' with Some bs => inl bs | None => match encode_operand AsBuilt e' (pl_item p') with Some bs => inl bs | None => _ end end) as [bs|m].
  - destruct (complete AsBuilt e l) as [c|[? ?]], (complete AsBuilt e' l') as [c'|[? ?]]; try contradiction; congruence.
  - reflexivity.
Qed.

Lemma close_eq : forall st st', deq st st' -> dsame (d_close AsBuilt st) (d_close AsBuilt st').
Proof.
  intros st st' [A E D P]. unfold d_close. pose proof (peq_complete _ _ _ _ E D P) as C.
  destruct (complete AsBuilt (d_env st) (d_done st)) as [c|[k m]], (complete AsBuilt (d_env st') (d_done st')) as [c'|[k' m']]; try contradiction; cbn.
  - split; [exact C|]. unfold writes. rewrite (peq_first _ _ D), (peq_last _ _ _ _ E D P). reflexivity.
  - exact C.
Qed.

Definition seq (a b : dstate + (string * place)) : Prop :=
  match a, b with inl s, inl s' => deq s s' | inr x, inr y => x = y | _, _ => False end.

Lemma define_eq : forall st st' n v, deq st st' -> deq (d_define st n v) (d_define st' n v).
Proof.
  intros st st' n v [A E D P]. constructor; cbn; auto. intros k K. cbn. destruct (text_eqb n k); auto.
Qed.

Lemma instr_eq : forall n n' st st' m o, deq st st' -> plain_expr (operand_expr o) ->
  seq (diag_instr AsBuilt n st m o) (diag_instr AsBuilt n' st' m o).
Proof.
  intros n n' st st' m o Q P. pose proof Q as [A E D Pl]. unfold diag_instr.
  assert (V : value_of (d_env st) o = value_of (d_env st') o).
  { unfold value_of. destruct (operand_expr o) as [x|]; [|reflexivity]. apply eval_eq; auto. }
  assert (U : unresolved (d_env st) o = unresolved (d_env st') o).
  { unfold unresolved. destruct (operand_expr o) as [[v|l]|] eqn:O; auto. rewrite (E l); auto. }
  rewrite V, U, A. destruct (unresolved (d_env st') o && negb (is_branch_name m || is_jump_name m)); [reflexivity|].
  destruct (denoted_mode m o (value_of (d_env st') o)) as [md|]; [|reflexivity].
  destruct (has_mode AsBuilt m md _) as [[op size]|]; [|reflexivity].
  assert (N : forall bytes, deq (mkD (d_addr st' + size) (d_env st) (d_done st ++ [mkPlaced n (mkItem (d_addr st') m md op size (operand_expr o)) bytes]))
     (mkD (d_addr st' + size) (d_env st') (d_done st' ++ [mkPlaced n' (mkItem (d_addr st') m md op size (operand_expr o)) bytes]))).
  { intro bytes. constructor; cbn; auto.
    - apply Forall2_app; auto. constructor; [split; reflexivity|constructor].
    - apply Forall_app. split; auto. }
  destruct (unresolved (d_env st') o); [apply N|].
  rewrite (encode_eq AsBuilt (d_env st) (d_env st')) by assumption. destruct (encode_operand _ _ _); [apply N|reflexivity].
Qed.

Lemma stmt_eq : forall n n' st st' s, deq st st' -> avoids s -> seq (diag_stmt AsBuilt n st s) (diag_stmt AsBuilt n' st' s).
Proof.
  intros n n' st st' s Q H. pose proof Q as [A E D Pl]. destruct s as [|l|l v|v| |[l|] m o]; cbn [diag_stmt]; try exact Q.
  all: try (rewrite (E l) by (apply H; left; reflexivity); destruct (lookup (d_env st') l); [reflexivity|]).
  - rewrite A. apply define_eq. exact Q.
  - apply define_eq. exact Q.
  - constructor; cbn; auto.
  - rewrite A. apply instr_eq; [apply define_eq; exact Q|]. intros k K. apply H. right. eauto.
  - apply instr_eq; auto. intros k K. apply H. right. eauto.
Qed.

(** the same statements *)
Lemma diag_context : forall x y, (forall n n' st st', deq st st' -> dsame (diag_from AsBuilt n st x) (diag_from AsBuilt n' st' y)) ->
  forall pre, Forall avoids pre -> forall n n' st st', deq st st' -> dsame (diag_from AsBuilt n st (pre ++ x)) (diag_from AsBuilt n' st' (pre ++ y)).
Proof.
  intros x y H pre F. induction F as [|s pre A F IH]; intros n n' st st' Q; [apply H; exact Q|].
  cbn [app diag_from]. pose proof (stmt_eq n n' st st' s Q A) as S. destruct s; try (apply close_eq; exact Q);
  destruct (diag_stmt AsBuilt n st _) as [s1|[m w]], (diag_stmt AsBuilt n' st' _) as [s2|[m' w']]; cbn in S; try contradiction; try (apply IH; exact S);
  injection S as <- <-; reflexivity.
Qed.

Lemma diag_rest : forall p, Forall avoids p -> forall n n' st st', deq st st' -> dsame (diag_from AsBuilt n st p) (diag_from AsBuilt n' st' p).
Proof.
  intros p F n n' st st' Q. rewrite <- (app_nil_r p). apply diag_context; auto. intros. apply close_eq. assumption.
Qed.

End Avoid.

Lemma deq_init : forall X, deq X (mkD 0 [] []) (mkD 0 [] []).
Proof. intro X. constructor; cbn; auto. intros n _. reflexivity. Qed.

Lemma image_unique : forall l f f', is_image l f -> is_image l f' -> f = f'.
Proof.
  intros l f f' [L A] [L' A']. apply nth_ext with (d := 0) (d' := 0); [lia|]. intros n H.
  specialize (A (Z.of_nat n)). specialize (A' (Z.of_nat n)). rewrite Nat2Z.id in *.
  assert (B : nth_error f n = nth_error f' n) by (rewrite A, A' by lia; reflexivity).
  rewrite !(nth_error_nth' _ 0) in B by lia. congruence.
Qed.
