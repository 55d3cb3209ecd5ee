(** Proof_Regular.v -- on regular statements the rules as built are the documented ones. *)
From Verif Require Import Base Proof_Base Spec_Isa Spec_Text Spec_Asm Spec_Diag Proof_Modes Proof_Diag Proof_Ref.

Lemma denoted_indexed : forall o v md, denoted_mode "JMP" o v = Some md -> md = ABSX \/ md = ABSY ->
  exists e, o = ODirX e \/ o = ODirY e.
Proof.
  intros o v md H M. unfold denoted_mode in H. cbn [is_branch_name is_jump_name existsb String.eqb Ascii.eqb Bool.eqb orb] in H.
  destruct o; try discriminate; injection H as <-; destruct M as [M|M]; try discriminate; eauto.
Qed.

Lemma has_mode_regular : forall e m o md, regular_operand m o ->
  denoted_mode m o (value_of e o) = Some md ->
  has_mode AsBuilt m md (match value_of e o with Some _ => true | None => false end) =
  has_mode Documented m md (match value_of e o with Some _ => true | None => false end).
Proof.
  intros e m o md R D. destruct (has_mode AsBuilt m md _) as [[op size]|] eqn:E.
  - destruct (has_mode_cases _ _ _ _ _ _ E) as [L|(_ & -> & K & M & _)].
    + unfold has_mode. rewrite L. reflexivity.
    + exfalso. destruct (denoted_indexed _ _ _ D M) as (x & X).
      destruct X as [-> | ->]; cbn in R, K; destruct x as [v|l]; cbn in K; try discriminate; apply R; reflexivity.
  - unfold has_mode in *. destruct (listed m md); [discriminate|]. destruct md; reflexivity.
Qed.

Lemma encode_cases : forall e it, encode_operand AsBuilt e it = encode_operand Documented e it \/
  exists v, it_mode it = REL /\ it_expr it = Some (Num v) /\ 255 < v.
Proof.
  intros e it. unfold encode_operand. destruct (it_expr it) as [x|]; [|auto].
  destruct (eval e x) as [v|] eqn:Ev; [|auto]. destruct (it_mode it); auto. destruct x as [w|l]; auto.
  cbn in Ev. injection Ev as ->. destruct (Z.leb_spec v 255); auto. right. eauto.
Qed.

Lemma diag_instr_regular : forall n st m o, regular_operand m o ->
  diag_instr AsBuilt n st m o = diag_instr Documented n st m o.
Proof.
  intros n st m o R. unfold diag_instr. destruct (_ && _); [reflexivity|].
  destruct (denoted_mode m o (value_of (d_env st) o)) as [md|] eqn:D; [|reflexivity].
  rewrite (has_mode_regular _ _ _ _ R D). destruct (has_mode Documented m md _) as [[op size]|]; [|reflexivity].
  destruct (unresolved (d_env st) o); [reflexivity|].
  destruct (encode_cases (d_env st) (mkItem (d_addr st) m md op size (operand_expr o))) as [-> |(v & E1 & E2 & E3)]; [reflexivity|].
  exfalso. cbn in E1, E2. subst md. destruct (denoted_rel _ _ _ D) as (B & e & ->). cbn in E2. injection E2 as ->.
  cbn in R. specialize (R B). lia.
Qed.

Lemma diag_stmt_regular : forall n st s, regular s -> diag_stmt AsBuilt n st s = diag_stmt Documented n st s.
Proof.
  intros n st s R. destruct s as [|l|l v|v| |[l|] m o]; try reflexivity; cbn [diag_stmt regular] in *.
  - destruct (lookup (d_env st) l); [reflexivity|]. apply diag_instr_regular. exact R.
  - apply diag_instr_regular. exact R.
Qed.

Definition open_labels (st : dstate) : Prop :=
  Forall (fun p => is_open p = true -> exists l, it_expr (pl_item p) = Some (Lab l)) (d_done st).

Lemma diag_instr_open : forall r n st m o st', open_labels st -> diag_instr r n st m o = inl st' -> open_labels st'.
Proof.
  intros r n st m o st' G H. unfold diag_instr in H. destruct (_ && _); [discriminate|].
  destruct (denoted_mode m o _) as [md|]; [|discriminate]. destruct (has_mode r m md _) as [[op size]|]; [|discriminate].
  destruct (unresolved (d_env st) o) eqn:U.
  - injection H as <-. apply Forall_app. split; [exact G|]. constructor; [|constructor]. intros _. cbn.
    unfold unresolved in U. destruct (operand_expr o) as [[v|l]|]; try discriminate. eauto.
  - destruct (encode_operand r _ _); [|discriminate]. injection H as <-. apply Forall_app. split; [exact G|].
    constructor; [discriminate|constructor].
Qed.

Lemma diag_stmt_open : forall r n st s st', open_labels st -> diag_stmt r n st s = inl st' -> open_labels st'.
Proof.
  intros r n st s st' G H. destruct s as [|l|l v|v| |[l|] m o]; cbn [diag_stmt] in H;
    try (injection H as <-; exact G);
    try (destruct (lookup (d_env st) l); [discriminate|]; try (injection H as <-; exact G)).
  - eapply diag_instr_open; [|exact H]. exact G.
  - eapply diag_instr_open; [|exact H]. exact G.
Qed.

Lemma complete_regular : forall e l, Forall (fun p => is_open p = true -> exists l, it_expr (pl_item p) = Some (Lab l)) l ->
  complete AsBuilt e l = complete Documented e l.
Proof.
  intros e l H. induction H as [|p l Hp H IH]; [reflexivity|]. cbn [complete]. rewrite IH.
  unfold is_open in Hp. destruct (pl_bytes p); [reflexivity|]. destruct (Hp eq_refl) as (lb & E).
  destruct (encode_cases e (pl_item p)) as [-> |(v & _ & E2 & _)]; [reflexivity|congruence].
Qed.

Lemma diag_from_regular : forall p n st, Forall regular p -> open_labels st ->
  diag_from AsBuilt n st p = diag_from Documented n st p.
Proof.
  assert (C : forall st, open_labels st -> d_close AsBuilt st = d_close Documented st).
  { intros st G. unfold d_close. rewrite (complete_regular _ _ G). reflexivity. }
  induction p as [|s p IH]; intros n st H G; [apply C; exact G|]. inversion H as [|? ? Hs H']; subst.
  pose proof (diag_stmt_regular n st s Hs) as E.
  assert (s = SEnd \/ s <> SEnd) as [-> |Ns] by (destruct s; auto; right; discriminate); [apply C; exact G|].
  assert (forall r, diag_from r n st (s :: p) = match diag_stmt r n st s with
        | inl st' => diag_from r (n + 1) st' p | inr (m, w) => DError n m w end) as K by (intro r; destruct s; try congruence; reflexivity).
  rewrite !K, E. destruct (diag_stmt Documented n st s) as [st'|[m w]] eqn:D; [|reflexivity].
  apply IH; [exact H'|]. eapply diag_stmt_open; eauto.
Qed.

Theorem diagnose_regular : forall p, Forall regular p -> diagnose AsBuilt p = diagnose Documented p.
Proof. intros p H. apply diag_from_regular; [exact H|constructor]. Qed.

Theorem reference_regular : forall p, Forall regular p -> reference AsBuilt p = reference Documented p.
Proof.
  intros p H. pose proof (diagnose_reference AsBuilt p) as A. pose proof (diagnose_reference Documented p) as B.
  rewrite (diagnose_regular p H) in A. destruct (diagnose Documented p); [destruct A, B|]; congruence.
Qed.


Lemma pass1_instr_regular : forall st m o, regular_operand m o ->
  pass1_instr AsBuilt st m o = pass1_instr Documented st m o.
Proof.
  intros st m o R. unfold pass1_instr. fold (value_of (p1_env st) o).
  destruct (denoted_mode m o (value_of (p1_env st) o)) as [md|] eqn:D; [|reflexivity].
  rewrite (has_mode_regular _ _ _ _ R D). reflexivity.
Qed.

Lemma pass1_stmt_regular : forall st s, regular s -> pass1_stmt AsBuilt st s = pass1_stmt Documented st s.
Proof.
  intros st s R. destruct s as [|l|l v|v| |[l|] m o]; try reflexivity; cbn [pass1_stmt regular] in *.
  - destruct (define st l (p1_addr st)); [|reflexivity]. apply pass1_instr_regular. exact R.
  - apply pass1_instr_regular. exact R.
Qed.

Theorem monotone_regular : forall p st, Forall regular p ->
  (monotone_from AsBuilt st p <-> monotone_from Documented st p).
Proof.
  induction p as [|s p IH]; intros st H; [reflexivity|]. inversion H as [|? ? Hs H']; subst.
  pose proof (pass1_stmt_regular st s Hs) as E. destruct s; cbn [monotone_from]; try reflexivity;
    rewrite E; (match goal with |- context [match ?x with Some _ => _ | None => _ end] => destruct x end;
      [rewrite (IH _ H'); reflexivity|reflexivity]).
Qed.

Theorem accepts_regular : forall p n st, Forall regular p -> accepts AsBuilt n st p = accepts Documented n st p.
Proof.
  induction p as [|s p IH]; intros n st H; [reflexivity|]. inversion H as [|? ? Hs H']; subst.
  pose proof (diag_stmt_regular n st s Hs) as E. destruct s; cbn [accepts]; try reflexivity; rewrite E;
    match goal with |- context [match ?x with inl _ => _ | inr _ => _ end] => destruct x end; auto.
Qed.
