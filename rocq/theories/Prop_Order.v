(** Prop_Order.v -- C72: a constant definition may be moved past statements that do not mention its name. *)
From Verif Require Import Base Proof_Base Model_Main Spec_Isa Spec_Text Spec_Asm Spec_Diag Spec_Prog Spec_Report Spec_Edit
  Proof_Prog Proof_Check Proof_Rewrite Prop_Program Prop_Edit.

Section Order.
Variables (n : text) (v : Z).

(** the second state knows the constant already *)
Record knows (st st' : dstate) : Prop := {
  w_addr : d_addr st = d_addr st';
  w_env : forall k, k <> n -> lookup (d_env st) k = lookup (d_env st') k;
  w_done : Forall2 peq (d_done st) (d_done st');
  w_new : lookup (d_env st) n = None;
  w_old : lookup (d_env st') n = Some v }.

Definition kseq (a b : dstate + (string * place)) : Prop :=
  match a, b with inl s, inl s' => knows s s' | inr x, inr y => x = y | _, _ => False end.

Lemma define_knows : forall st st' l w, l <> n -> knows st st' -> knows (d_define st l w) (d_define st' l w).
Proof.
  intros st st' l w H [A E D N O]. assert (text_eqb l n = false) as Q by (apply text_eqb_neq; exact H).
  constructor; cbn [d_define d_addr d_env d_done lookup]; rewrite ?Q; auto.
  intros k K. cbn [lookup]. destruct (text_eqb l k); auto.
Qed.

Lemma instr_knows : forall k k' st st' m o, knows st st' -> operand_expr o <> Some (Lab n) ->
  kseq (diag_instr AsBuilt k st m o) (diag_instr AsBuilt k' st' m o).
Proof.
  intros k k' st st' m o Q P. pose proof Q as [A E D N O]. unfold diag_instr.
  assert (Ev : forall x, operand_expr o = Some x -> eval (d_env st) x = eval (d_env st') x).
  { intros [z|l] X; [reflexivity|]. cbn [eval]. apply E. congruence. }
  assert (V : value_of (d_env st) o = value_of (d_env st') o).
  { unfold value_of. destruct (operand_expr o) as [x|] eqn:X; [|reflexivity]. apply Ev. reflexivity. }
  assert (U : unresolved (d_env st) o = unresolved (d_env st') o).
  { unfold unresolved. destruct (operand_expr o) as [[z|l]|] eqn:X; auto. rewrite (E l); [reflexivity|congruence]. }
  rewrite V, U, A. destruct (unresolved (d_env st') o && negb (is_branch_name m || is_jump_name m)); [reflexivity|].
  destruct (denoted_mode m o (value_of (d_env st') o)) as [md|]; [|reflexivity].
  destruct (has_mode AsBuilt m md _) as [[op size]|]; [|reflexivity].
  assert (Nx : forall bytes, knows (mkD (d_addr st' + size) (d_env st) (d_done st ++ [mkPlaced k (mkItem (d_addr st') m md op size (operand_expr o)) bytes]))
     (mkD (d_addr st' + size) (d_env st') (d_done st' ++ [mkPlaced k' (mkItem (d_addr st') m md op size (operand_expr o)) bytes]))).
  { intro bytes. constructor; cbn [d_addr d_env d_done]; auto. apply Forall2_app; auto. constructor; [split; reflexivity|constructor]. }
  destruct (unresolved (d_env st') o); [apply Nx|].
  assert (encode_operand AsBuilt (d_env st) (mkItem (d_addr st') m md op size (operand_expr o)) =
    encode_operand AsBuilt (d_env st') (mkItem (d_addr st') m md op size (operand_expr o))) as ->.
  { unfold encode_operand. cbn [it_expr]. destruct (operand_expr o) as [x|]; [|reflexivity]. rewrite (Ev x eq_refl). reflexivity. }
  destruct (encode_operand _ _ _); [apply Nx|reflexivity].
Qed.

Lemma stmt_knows : forall k k' st st' s, knows st st' -> ~ mentions s n -> kseq (diag_stmt AsBuilt k st s) (diag_stmt AsBuilt k' st' s).
Proof.
  intros k k' st st' s Q H. pose proof Q as [A E D N O]. destruct s as [|l|l w|w| |[l|] m o]; cbn [diag_stmt]; try exact Q.
  1,2,4: assert (Ln : l <> n) by (intros ->; apply H; left; reflexivity); rewrite (E l Ln); destruct (lookup (d_env st') l); [reflexivity|].
  - rewrite A. apply define_knows; assumption.
  - apply define_knows; assumption.
  - rewrite A. apply instr_knows; [apply define_knows; assumption|]. intro X. apply H. right. eauto.
  - constructor; cbn [d_addr d_env d_done]; auto.
  - apply instr_knows; [exact Q|]. intro X. apply H. right. eauto.
Qed.

Lemma diag_knows : forall q p, Forall (fun s => ~ mentions s n) p -> ~ In SEnd p -> forall k k' st st', knows st st' ->
  dsame (diag_from AsBuilt k' st' (p ++ q)) (diag_from AsBuilt k st (p ++ SConst n v :: q)).
Proof.
  intros q p F. induction F as [|s p H F IH]; intros NE k k' st st' Q.
  - cbn [app diag_from diag_stmt]. rewrite (w_new _ _ Q). apply diag_rest with (X := nobody); [apply avoids_nobody|].
    destruct Q as [A E D N O]. constructor; cbn [d_define d_addr d_env d_done]; auto.
    + intros k0 _. cbn [lookup]. destruct (text_eqb n k0) eqn:T; [apply text_eqb_eq in T; subst k0; exact O|].
      symmetry. apply E. apply text_eqb_neq in T. congruence.
    + clear -D. induction D as [|x y l l' [I B] D IH]; constructor; auto. split; congruence.
    + apply Forall_forall. intros x _ l _ [].
  - assert (NE' : ~ In SEnd p) by (intro K; apply NE; right; exact K). cbn [app diag_from].
    pose proof (stmt_knows k k' st st' s Q H) as S. destruct s; try (destruct NE; left; reflexivity);
    destruct (diag_stmt AsBuilt k st _) as [s1|[m w]], (diag_stmt AsBuilt k' st' _) as [s2|[m' w']]; cbn in S; try contradiction; try (apply IH; auto; exact S);
    injection S as <- <-; reflexivity.
Qed.

(** the name is not in the table as long as nothing defines it *)
Lemma undefined_yet : forall k st s st', diag_stmt AsBuilt k st s = inl st' -> defines s <> Some n -> lookup (d_env st) n = None -> lookup (d_env st') n = None.
Proof.
  assert (I : forall k st m o st', diag_instr AsBuilt k st m o = inl st' -> d_env st' = d_env st).
  { intros k st m o st' H. unfold diag_instr in H.
    repeat match type of H with context [match ?x with _ => _ end] => destruct x; try discriminate end; injection H as <-; reflexivity. }
  intros k st s st' H N L.
  assert (Ne : forall l, defines s = Some l -> text_eqb l n = false) by (intros l K; apply text_eqb_neq; congruence).
  destruct s as [|l|l w|w| |[l|] m o]; cbn [diag_stmt] in H; cbn [defines] in Ne.
  - injection H as <-. exact L.
  - destruct (lookup (d_env st) l); [discriminate|]. injection H as <-. cbn. rewrite Ne; auto.
  - destruct (lookup (d_env st) l); [discriminate|]. injection H as <-. cbn. rewrite Ne; auto.
  - injection H as <-. exact L.
  - injection H as <-. exact L.
  - destruct (lookup (d_env st) l); [discriminate|]. rewrite (I _ _ _ _ _ H). cbn. rewrite Ne; auto.
  - rewrite (I _ _ _ _ _ H). exact L.
Qed.

Lemma diag_move : forall q p front, Forall (fun s => ~ mentions s n) p -> ~ In SEnd p -> (forall s, In s front -> defines s <> Some n) ->
  forall k st st', deq nobody st st' -> lookup (d_env st) n = None ->
  dsame (diag_from AsBuilt k st (front ++ SConst n v :: p ++ q)) (diag_from AsBuilt k st' (front ++ p ++ SConst n v :: q)).
Proof.
  intros q p front F NE. induction front as [|s front IH]; intros Df k st st' Q L.
  - cbn [app]. cbn [diag_from diag_stmt]. rewrite L. apply diag_knows; auto. destruct Q as [A E D P].
    constructor; cbn [d_define d_addr d_env d_done lookup].
    + symmetry. exact A.
    + intros j J. cbn [lookup]. assert (text_eqb n j = false) as -> by (apply text_eqb_neq; congruence). symmetry. apply E. intros [].
    + clear -D. induction D as [|x y l l' [I B] D IH]; constructor; auto. split; congruence.
    + rewrite <- E by (intros []). exact L.
    + assert (text_eqb n n = true) as -> by (apply text_eqb_eq; reflexivity). reflexivity.
  - cbn [app diag_from]. pose proof (stmt_eq nobody k k st st' s Q (Forall_inv (avoids_nobody [s]))) as S.
    assert (K := fun st1 => undefined_yet k st s st1). assert (Ds : defines s <> Some n) by (apply Df; left; reflexivity).
    destruct s; try (apply (close_eq nobody); exact Q);
    destruct (diag_stmt AsBuilt k st _) as [s1|[m w]], (diag_stmt AsBuilt k st' _) as [s2|[m' w']]; cbn in S; try contradiction;
      try (apply IH; [intros; apply Df; right; assumption|exact S|apply K; auto]); injection S as <- <-; reflexivity.
Qed.
End Order.

Theorem C72_move : forall file src src' front p q n v,
  program_means src (front ++ SConst n v :: p ++ q) -> program_means src' (front ++ p ++ SConst n v :: q) -> small src -> small src' ->
  (forall s, In s front -> defines s <> Some n) -> (forall s, In s p -> ~ mentions s n) -> ~ In SEnd p ->
  same_code file 0 (gaia file src) (gaia file src').
Proof.
  intros file src src' front p q n v M M' B B' Df Mp NE. eapply dsame_code; eauto.
  - apply diag_move; auto; [apply Forall_forall; exact Mp|apply deq_init].
  - rewrite Z.add_0_r. destruct (in_dec (fun a b : stmt => ltac:(repeat decide equality)) SEnd front) as [K|K].
    + rewrite !body_stop by exact K. reflexivity.
    + rewrite !(body_app front) by exact K. cbn [body]. rewrite !(body_app p) by exact NE. cbn [body].
      rewrite !count_app, !count_cons, !count_app. lia.
Qed.

(** whatever stands in front, the exit status is the same *)
Lemma defined_twice : forall p q n v st, ~ In SEnd p -> (exists s, In s p /\ defines s = Some n) ->
  pass1 AsBuilt st (p ++ SConst n v :: q) = None.
Proof.
  intros p q n v st NE H. rewrite pass1_app by exact NE. destruct (pass1 AsBuilt st p) as [st1|] eqn:E; [|reflexivity].
  destruct (pass1_env _ _ _ _ NE E) as [_ V]. destruct (proj2 (V n)) as (w & L); [right; exact H|].
  cbn [pass1 pass1_stmt]. unfold define. rewrite L. reflexivity.
Qed.

Lemma verdicts : forall file src src' p p', program_means src p -> program_means src' p' -> small src -> small src' ->
  (reference AsBuilt p = None <-> reference AsBuilt p' = None) ->
  exists o o', gaia file src = Ret o /\ gaia file src' = Ret o' /\ (exit_code o = 0 \/ exit_code o = 1) /\ exit_code o = exit_code o'.
Proof.
  intros file src src' p p' M M' B B' R.
  destruct (program_cases file src p M B) as
    [(st & code & bin & _ & R1 & _ & _ & G1 & _)|(n & m & w & o & lines & line & toks & _ & R1 & G1 & X1 & _)];
  destruct (program_cases file src' p' M' B') as
    [(st' & code' & bin' & _ & R2 & _ & _ & G2 & _)|(n' & m' & w' & o' & lines' & line' & toks' & _ & R2 & G2 & X2 & _)].
  - eexists _, _. split; [exact G1|]. split; [exact G2|]. split; [left; reflexivity|reflexivity].
  - rewrite R1 in R. destruct R as [_ R]. specialize (R R2). discriminate.
  - rewrite R2 in R. destruct R as [R _]. specialize (R R1). discriminate.
  - exists o, o'. split; [exact G1|]. split; [exact G2|]. split; [right; exact X1|congruence].
Qed.

Theorem C72_status : forall file src src' front p q n v,
  program_means src (front ++ SConst n v :: p ++ q) -> program_means src' (front ++ p ++ SConst n v :: q) -> small src -> small src' ->
  (forall s, In s p -> ~ mentions s n) -> ~ In SEnd p ->
  exists o o', gaia file src = Ret o /\ gaia file src' = Ret o' /\ (exit_code o = 0 \/ exit_code o = 1) /\ exit_code o = exit_code o'.
Proof.
  intros file src src' front p q n v M M' B B' Mp NE. eapply verdicts; eauto. unfold reference, pass1_program.
  destruct (in_dec (fun a b : stmt => ltac:(repeat decide equality)) SEnd front) as [K|K].
  { rewrite (pass1_body _ (front ++ SConst n v :: p ++ q)), (pass1_body _ (front ++ p ++ SConst n v :: q)), !body_stop by exact K. tauto. }
  destruct (existsb (fun s => match defines s with Some l => text_eqb l n | None => false end) front) eqn:X.
  { assert (H : exists s, In s front /\ defines s = Some n).
    { apply existsb_exists in X. destruct X as (s & Hs & E). exists s. split; [exact Hs|]. destruct (defines s) as [l|]; [|discriminate].
      apply text_eqb_eq in E. congruence. }
    rewrite defined_twice by assumption. rewrite app_assoc, defined_twice; [tauto| |].
    - intro E. apply in_app_or in E. destruct E; auto.
    - destruct H as (s & Hs & E). exists s. split; [apply in_or_app; left; exact Hs|exact E]. }
  assert (Df : forall s, In s front -> defines s <> Some n).
  { intros s Hs E. assert (existsb (fun s => match defines s with Some l => text_eqb l n | None => false end) front = true); [|congruence].
    apply existsb_exists. exists s. split; [exact Hs|]. rewrite E. apply text_eqb_eq. reflexivity. }
  destruct (C72_move [] src src' front p q n v M M' B B' Df Mp NE) as (o & o' & G & G' & E & _).
  destruct (C26_as_built [] src _ M B) as (o1 & G1 & X1 & _). destruct (C26_as_built [] src' _ M' B') as (o1' & G1' & X1' & _).
  rewrite G in G1. injection G1 as <-. rewrite G' in G1'. injection G1' as <-. rewrite E in X1.
  fold (pass1_program AsBuilt (front ++ SConst n v :: p ++ q)). fold (pass1_program AsBuilt (front ++ p ++ SConst n v :: q)).
  fold (reference AsBuilt (front ++ SConst n v :: p ++ q)). fold (reference AsBuilt (front ++ p ++ SConst n v :: q)).
  destruct (reference AsBuilt (front ++ SConst n v :: p ++ q)) as [c|], (reference AsBuilt (front ++ p ++ SConst n v :: q)) as [c'|];
    try tauto; split; try discriminate; intros _; exfalso.
  - destruct (proj1 X1' (proj2 X1 ltac:(eauto))). discriminate.
  - destruct (proj1 X1 (proj2 X1' ltac:(eauto))). discriminate.
Qed.

(** a case: the jump in front needs the constant, and the origin goes backwards *)
Example C72_case : exists file src src' front p q n v o,
  program_means src (front ++ SConst n v :: p ++ q) /\ program_means src' (front ++ p ++ SConst n v :: q) /\ small src /\ small src' /\
  (forall s, In s front -> defines s <> Some n) /\ (forall s, In s p -> ~ mentions s n) /\ ~ In SEnd p /\
  gaia file src = Ret o /\ exit_code o = 0 /\ binary o = [165; 4; 165; 7; 76; 4; 0] /\ p <> [] /\ q <> [].
Proof.
  set (l1 := [T ".org 4"; T " jmp OUT"]). set (l2 := [T ".org 2"; T "L: lda 7"]). set (l3 := [T ".org 0"; T " lda OUT"]).
  destruct (statements l1) as [f|] eqn:E1; [|vm_compute in E1; discriminate].
  destruct (statements l2) as [p|] eqn:E2; [|vm_compute in E2; discriminate].
  destruct (statements l3) as [q|] eqn:E3; [|vm_compute in E3; discriminate].
  exists (T "a.asm"), (join (l1 ++ T "OUT = 4" :: l2 ++ l3)), (join (l1 ++ l2 ++ T "OUT = 4" :: l3)), f, p, q, (T "OUT"), 4.
  vm_compute in E1, E2, E3. injection E1 as <-. injection E2 as <-. injection E3 as <-. eexists.
  split; [apply means_lines; vm_compute; reflexivity|]. split; [apply means_lines; vm_compute; reflexivity|].
  do 2 (split; [vm_compute; reflexivity|]).
  split. { intros s [<-|[<-|[]]]; discriminate. }
  split. { intros s [<-|[<-|[]]] [K|(lab & m & o & K & E)]; try discriminate. injection K as <- <- <-. discriminate. }
  split. { intros [K|[K|[]]]; discriminate. }
  split; [vm_compute; reflexivity|]. split; [reflexivity|]. split; [reflexivity|]. split; discriminate.
Qed.

(** a statement that mentions the name cannot be passed *)
Theorem C72_needed : exists file src src' p q n v o o',
  program_means src (SConst n v :: p ++ q) /\ program_means src' (p ++ SConst n v :: q) /\ small src /\ small src' /\ ~ In SEnd p /\
  gaia file src = Ret o /\ exit_code o = 0 /\ gaia file src' = Ret o' /\ exit_code o' = 1.
Proof.
  set (l1 := [T " lda OUT"]). destruct (statements l1) as [p|] eqn:E1; [|vm_compute in E1; discriminate].
  exists (T "a.asm"), (join (T "OUT = 4" :: l1)), (join (l1 ++ [T "OUT = 4"])), p, [], (T "OUT"), 4. vm_compute in E1. injection E1 as <-.
  eexists _, _. split; [apply means_lines; vm_compute; reflexivity|]. split; [apply means_lines; vm_compute; reflexivity|].
  do 2 (split; [vm_compute; reflexivity|]). split; [intros [K|[]]; discriminate|].
  split; [vm_compute; reflexivity|]. split; [reflexivity|]. split; [vm_compute; reflexivity|reflexivity].
Qed.
