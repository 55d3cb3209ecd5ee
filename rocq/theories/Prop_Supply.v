(** Prop_Supply.v -- C84: labels that are reported as missing can be supplied behind the program. *)
From Verif Require Import Base Proof_Base Model_Main Spec_Isa Spec_Text Spec_Asm Spec_Diag Spec_Prog Spec_Report Spec_Edit
  Proof_Core Proof_Modes Proof_Diag Proof_Ref Proof_Decimal Proof_Prog Proof_Check Proof_Rewrite Proof_Sim2 Proof_Image Prop_Program Prop_Edit Prop_Blame.

(** the instructions come from the statements *)
Definition comes_from (p : list stmt) (n : Z) (q : placed) : Prop :=
  exists lab m o, nth_error p (Z.to_nat (pl_line q - n)) = Some (SInstr lab m o) /\ n <= pl_line q /\
    it_expr (pl_item q) = operand_expr o /\ (it_mode (pl_item q) = REL -> is_branch_name m = true /\ exists x, o = ODir x).

Lemma instr_origin : forall n st m o st', diag_instr AsBuilt n st m o = inl st' ->
  exists q, d_done st' = d_done st ++ [q] /\ pl_line q = n /\ it_expr (pl_item q) = operand_expr o /\
    (it_mode (pl_item q) = REL -> is_branch_name m = true /\ exists x, o = ODir x).
Proof.
  intros n st m o st' K. unfold diag_instr in K. destruct (unresolved (d_env st) o && _); [discriminate|].
  destruct (denoted_mode m o _) as [md|] eqn:Dm; [|discriminate]. destruct (has_mode AsBuilt m md _) as [[op size]|]; [|discriminate].
  destruct (unresolved (d_env st) o); [|destruct (encode_operand _ _ _); [|discriminate]]; injection K as <-; cbn [d_done];
    (eexists; split; [reflexivity|]; cbn [pl_line pl_item it_expr it_mode]; do 2 (split; [reflexivity|]); intros ->; eapply denoted_rel; exact Dm).
Qed.

Lemma stmt_origin : forall n st s st', diag_stmt AsBuilt n st s = inl st' ->
  exists more, d_done st' = d_done st ++ more /\ Forall (comes_from [s] n) more.
Proof.
  intros n st s st' H. destruct s as [|l|l v|v| |[l|] m o]; cbn [diag_stmt] in H;
    try (destruct (lookup (d_env st) l); [discriminate|]);
    try (injection H as <-; exists []; rewrite app_nil_r; auto; fail);
    (apply instr_origin in H; destruct H as (q & E & L & X & R); exists [q]; split; [exact E|]; constructor; [|constructor];
     eexists _, m, o; rewrite L, Z.sub_diag; split; [reflexivity|]; split; [lia|]; split; assumption).
Qed.

Lemma accepts_origin : forall p n st st', accepts AsBuilt n st p = Some st' ->
  exists more, d_done st' = d_done st ++ more /\ Forall (comes_from p n) more.
Proof.
  induction p as [|s p IH]; intros n st st' H.
  - injection H as <-. exists []. rewrite app_nil_r. auto.
  - assert (N : s <> SEnd) by (intros ->; discriminate). rewrite accepts_step in H by exact N.
    destruct (diag_stmt AsBuilt n st s) as [st1|] eqn:E; [|discriminate].
    destruct (stmt_origin _ _ _ _ E) as (a & A1 & A2). destruct (IH _ _ _ H) as (b & B1 & B2).
    exists (a ++ b). rewrite B1, A1, app_assoc. split; [reflexivity|]. apply Forall_app. split.
    + eapply Forall_impl; [|exact A2]. intros q (lab & m & o & K & R). exists lab, m, o. split; [|exact R].
      destruct (Z.to_nat (pl_line q - n)) as [|i]; [exact K|]. cbn in K. destruct i; discriminate.
    + eapply Forall_impl; [|exact B2]. intros q (lab & m & o & K & G & R). exists lab, m, o. split; [|split; [lia|exact R]].
      replace (Z.to_nat (pl_line q - n)) with (S (Z.to_nat (pl_line q - (n + 1)))) by lia. exact K.
Qed.

(** a report at the end *)
Lemma complete_error : forall e l k m, complete AsBuilt e l = inr (k, m) ->
  exists p, In p l /\ pl_line p = k /\ encode_operand AsBuilt e (pl_item p) = None /\
    m = match (match it_expr (pl_item p) with Some x => eval e x | None => None end) with
        | None => "label definition was not found"%string | Some _ => "branch offset too far away"%string end.
Proof.
  induction l as [|p l IH]; intros k m H; [discriminate|]. cbn [complete] in H.
  destruct (pl_bytes p) as [bs|] eqn:B.
  - destruct (complete AsBuilt e l) as [c'|[k' m']]; [discriminate|]. injection H as -> ->. destruct (IH _ _ eq_refl) as (q & I & R). exists q. split; [right; exact I|exact R].
  - destruct (encode_operand AsBuilt e (pl_item p)) as [bs|] eqn:En.
    + destruct (complete AsBuilt e l) as [c'|[k' m']]; [discriminate|]. injection H as -> ->. destruct (IH _ _ eq_refl) as (q & I & R). exists q. split; [right; exact I|exact R].
    + injection H as <- <-. exists p. split; [left; reflexivity|]. auto.
Qed.

Definition line_messages : list string :=
  ["illegal forward reference"; "illegal addressing mode"; "branch offset too far away"; "no redefinition of labels"]%string.
Lemma stmt_message : forall n st s m w, diag_stmt AsBuilt n st s = inr (m, w) -> In m line_messages.
Proof.
  intros n st s m w H.
  assert (I : forall st m0 o, diag_instr AsBuilt n st m0 o = inr (m, w) -> In m line_messages).
  { intros st0 m0 o K. unfold diag_instr in K. unfold line_messages.
    destruct (unresolved (d_env st0) o && _); [injection K as <- _; cbn; auto|].
    destruct (denoted_mode m0 o _) as [md|]; [|injection K as <- _; cbn; auto].
    destruct (has_mode AsBuilt m0 md _) as [[op size]|]; [|injection K as <- _; cbn; auto].
    destruct (unresolved (d_env st0) o); [discriminate|destruct (encode_operand _ _ _); [discriminate|injection K as <- _; cbn; auto]]. }
  destruct s as [|l|l v|v| |[l|] m0 o]; cbn [diag_stmt] in H; try discriminate;
    try (destruct (lookup (d_env st) l); [injection H as <- _; unfold line_messages; cbn; auto|]); try discriminate; eapply I; exact H.
Qed.

(** an error is an error of a line, or of the end *)
Lemma diag_error : forall p n st k m w, diag_from AsBuilt n st p = DError k m w ->
  In m line_messages \/ exists st', accepts AsBuilt n st (body p) = Some st' /\ complete AsBuilt (d_env st') (d_done st') = inr (k, m).
Proof.
  assert (C : forall st k m w, d_close AsBuilt st = DError k m w -> complete AsBuilt (d_env st) (d_done st) = inr (k, m)).
  { intros st k m w H. unfold d_close in H. destruct (complete AsBuilt (d_env st) (d_done st)) as [c|[? ?]]; [discriminate|]. injection H as -> -> _. reflexivity. }
  induction p as [|s p IH]; intros n st k m w H.
  - right. exists st. split; [reflexivity|]. eapply C; exact H.
  - assert (s = SEnd \/ s <> SEnd) as [-> |N] by (destruct s; auto; right; discriminate).
    + right. exists st. split; [reflexivity|]. eapply C; exact H.
    + replace (body (s :: p)) with (s :: body p) by (destruct s; congruence || reflexivity).
      rewrite accepts_step by exact N. rewrite diag_step in H by exact N.
      destruct (diag_stmt AsBuilt n st s) as [s1|[m' w']] eqn:E; [eapply IH; exact H|].
      injection H as <- <- <-. left. eapply stmt_message; exact E.
Qed.

(** ** Definitions behind a program *)
(** a line that only defines a label *)
Definition plain_definition (s : stmt) (l : text) : Prop := s = SLabel l \/ exists v, s = SConst l v.

Lemma definitions_accepted : forall q ls n st, Forall2 plain_definition q ls -> NoDup ls -> (forall l, In l ls -> lookup (d_env st) l = None) ->
  exists st', accepts AsBuilt n st q = Some st' /\ d_done st' = d_done st /\
    (forall l v, lookup (d_env st) l = Some v -> lookup (d_env st') l = Some v) /\ (forall l, In l ls -> lookup (d_env st') l <> None).
Proof.
  intros q ls n st F. revert n st. induction F as [|s l q ls D F IH]; intros n st Nd Fr.
  - exists st. split; [reflexivity|]. split; [reflexivity|]. split; [auto|]. intros l [].
  - inversion Nd as [|? ? Ni Nd']; subst.
    assert (exists v, diag_stmt AsBuilt n st s = inl (d_define st l v) /\ s <> SEnd) as (v & Es & Ns).
    { destruct D as [-> |(v & ->)]; cbn [diag_stmt]; rewrite (Fr l (or_introl eq_refl)); eexists; (split; [reflexivity|discriminate]). }
    destruct (IH (n + 1) (d_define st l v) Nd') as (st' & A & B & C & E).
    { intros k K. cbn [d_define d_env lookup]. destruct (text_eqb l k) eqn:T; [apply text_eqb_eq in T; subst; contradiction|]. apply Fr. right. exact K. }
    exists st'. rewrite accepts_step, Es by exact Ns. split; [exact A|]. split; [exact B|].
    assert (Ex : forall k w, lookup (d_env st) k = Some w -> lookup (d_env st') k = Some w).
    { intros k w K. apply C. cbn [d_define d_env lookup]. destruct (text_eqb l k) eqn:T; [|exact K].
      apply text_eqb_eq in T. subst. rewrite (Fr k (or_introl eq_refl)) in K. discriminate. }
    split; [exact Ex|]. intros k [<- |K]; [|apply E; exact K].
    rewrite (C l v); [discriminate|]. cbn [d_define d_env lookup]. rewrite text_eqb_same. reflexivity.
Qed.

Theorem C84_supply : forall file src src' p q ls o n line pos,
  program_means src p -> program_means src' (p ++ q) -> small src -> small src' -> ~ In SEnd p ->
  gaia file src = Ret o -> Report file n "label definition was not found" line pos (stdout o) ->
  (* only labels are defined behind, new ones, and every label in use is now defined *)
  Forall2 plain_definition q ls -> NoDup ls -> (forall l s, In l ls -> In s p -> defines s <> Some l) ->
  (forall lab m op l, In (SInstr lab m op) p -> operand_expr op = Some (Lab l) -> exists s, In s (p ++ q) /\ defines s = Some l) ->
  exists o', gaia file src' = Ret o' /\
    (exit_code o' = 0 \/
     exists k lab m l line' pos', nth_error p k = Some (SInstr lab m (ODir (Lab l))) /\ is_branch_name m = true /\
       Report file (1 + Z.of_nat k) "branch offset too far away" line' pos' (stdout o')).
Proof.
  intros file src src' p q ls o n line pos M M' B B' NE G R F Nd Fr Used.
  assert (D : exists st, state_after AsBuilt p = Some st).
  { destruct (program_cases file src _ M B) as [(s1 & c1 & b1 & D & _ & _ & _ & G1 & _)|(k & m & w & o1 & lines & ln & toks & D & _ & G1 & _ & _ & _ & _ & _ & R')].
    - destruct (diagnose_state _ _ _ _ _ _ D) as [A _]. rewrite body_id in A by exact NE. exists s1. exact A.
    - rewrite G1 in G. injection G as ->. destruct (diag_error _ _ _ _ _ _ D) as [I|(st & A & _)].
      + exfalso. assert (~ In ch_nl (T m)) as Nm by (destruct I as [<- |[<- |[<- |[<- |[]]]]]; intro K; cbn in K; repeat destruct K as [K|K]; (discriminate || exact K)).
        assert (m = "label definition was not found"%string) as ->.
        { symmetry. refine (proj2 (Report_inj _ _ _ _ _ _ _ _ _ _ R R' _ Nm)). intro K; cbn in K; repeat destruct K as [K|K]; (discriminate || exact K). }
        destruct I as [I|[I|[I|[I|[]]]]]; discriminate.
      + rewrite body_id in A by exact NE. exists st. exact A. }
  destruct D as (st & S). destruct (state_after_env _ _ _ S) as [_ Env].
  destruct (definitions_accepted q ls (1 + zlen p) st F Nd) as (st' & A & Dn & Ex & New).
  { intros l I. destruct (lookup (d_env st) l) as [v|] eqn:L; [|reflexivity]. exfalso.
    destruct (proj1 (Env l) (ex_intro _ v L)) as (s & Is & Ds). exact (Fr l s I Is Ds). }
  assert (NQ : ~ In SEnd q).
  { clear - F. induction F as [|s l q ls D F IH]; [intros []|]. intros [-> |K]; [destruct D as [D|(v & D)]; discriminate|exact (IH K)]. }
  assert (S' : accepts AsBuilt 1 (mkD 0 [] []) (p ++ q) = Some st') by (rewrite accepts_app; unfold state_after in S; rewrite S; exact A).
  destruct (program_cases file src' _ M' B') as [(s1 & c1 & b1 & D & _ & _ & _ & G1 & _)|(k & m & w & o1 & lines & ln & toks & D & _ & G1 & _ & _ & _ & _ & _ & R')].
  { eexists. split; [exact G1|]. left. reflexivity. }
  exists o1. split; [exact G1|]. right. unfold diagnose in D.
  pose proof (diag_body (p ++ q) 1 (mkD 0 [] [])) as Db. rewrite body_app, (body_id q), S' in Db by assumption. rewrite Db in D.
  unfold d_close in D. destruct (complete AsBuilt (d_env st') (d_done st')) as [c|[k' m']] eqn:C; [discriminate|]. injection D as -> -> <-.
  destruct (complete_error _ _ _ _ C) as (it & I & L & En & Em). rewrite Dn in I.
  destruct (accepts_origin _ _ _ _ S) as (more & Dm & Or). cbn [d_done app] in Dm. rewrite Dm in I.
  rewrite Forall_forall in Or. destruct (Or _ I) as (lab & mn & op & Nth & Ge & X & Rel).
  assert (Defd : forall l, operand_expr op = Some (Lab l) -> exists v, lookup (d_env st') l = Some v).
  { intros l El. destruct (Used lab mn op l (nth_error_In _ _ Nth) El) as (s & Is & Ds). apply in_app_or in Is. destruct Is as [Is|Is].
    - destruct (proj2 (Env l) (ex_intro _ s (conj Is Ds))) as (v & V). exists v. apply Ex. exact V.
    - assert (In l ls).
      { clear - F Is Ds. induction F as [|s0 l0 q ls D F IH]; [destruct Is|]. destruct Is as [-> |Is]; [left|right; auto].
        destruct D as [-> |(v & ->)]; cbn in Ds; congruence. }
      specialize (New l H). destruct (lookup (d_env st') l) as [v|]; [eauto|congruence]. }
  unfold encode_operand in En. rewrite X in En, Em. destruct (operand_expr op) as [x|] eqn:Ox; [|discriminate].
  assert (exists v, eval (d_env st') x = Some v) as (v & Ev) by (destruct x as [v|l]; [eexists; reflexivity|apply (Defd l eq_refl)]).
  rewrite Ev in En, Em. subst m.
  destruct (it_mode (pl_item it)) eqn:Md; try discriminate. destruct (Rel eq_refl) as (Br & y & ->). cbn [operand_expr] in Ox. injection Ox as ->.
  destruct x as [u|l]; [destruct (v <=? 255); discriminate|].
  exists (Z.to_nat (pl_line it - 1)), lab, mn, l, (before_nul ln), (place_offset toks AtOperand).
  split; [exact Nth|]. split; [exact Br|]. replace (1 + Z.of_nat (Z.to_nat (pl_line it - 1))) with k by lia. exact R'.
Qed.

Example C84_case : exists file src src' p q ls o o' line pos,
  program_means src p /\ program_means src' (p ++ q) /\ small src /\ small src' /\ ~ In SEnd p /\
  gaia file src = Ret o /\ Report file 1 "label definition was not found" line pos (stdout o) /\
  Forall2 plain_definition q ls /\ NoDup ls /\ (forall l s, In l ls -> In s p -> defines s <> Some l) /\
  (forall lab m op l, In (SInstr lab m op) p -> operand_expr op = Some (Lab l) -> exists s, In s (p ++ q) /\ defines s = Some l) /\
  gaia file src' = Ret o' /\ exit_code o' = 0 /\ binary o' = [240; 3; 76; 52; 18].
Proof.
  set (l0 := [T " beq HERE"; T " jmp THERE"]). set (l1 := [T "HERE"; T "THERE .EQU $1234"]).
  destruct (statements l0) as [p|] eqn:E0; [|vm_compute in E0; discriminate].
  destruct (statements l1) as [q|] eqn:E1; [|vm_compute in E1; discriminate].
  exists (T "a.asm"), (join l0), (join (l0 ++ l1)), p, q, [T "HERE"; T "THERE"].
  vm_compute in E0, E1. injection E0 as <-. injection E1 as <-.
  do 2 eexists. exists (T " beq HERE"), (Some 5%nat).
  do 2 (split; [apply means_lines; vm_compute; reflexivity|]). do 2 (split; [vm_compute; reflexivity|]).
  split; [intro K; repeat destruct K as [K|K]; (discriminate || exact K)|].
  split; [vm_compute; reflexivity|]. split.
  { exists (T " beq HERE"). split.
    - exists []. split; [reflexivity|]. split; [constructor|]. exists (T " beq HER"), "E"%char. split; [reflexivity|].
      intros [K|[K|[K|K]]]; vm_compute in K; discriminate.
    - vm_compute. reflexivity. }
  split. { constructor; [left; reflexivity|]. constructor; [right; eexists; reflexivity|constructor]. }
  split. { constructor; [intros [K|[]]; discriminate|]. constructor; [intros []|constructor]. }
  split. { intros l s _ [<- |[<- |[]]]; discriminate. }
  split. { intros lab m op l [K|[K|[]]] E; injection K as <- <- <-; cbn in E; injection E as <-.
    - eexists. split; [right; right; left; reflexivity|reflexivity].
    - eexists. split; [right; right; right; left; reflexivity|reflexivity]. }
  split; [vm_compute; reflexivity|]. split; reflexivity.
Qed.
