(** Prop_Edit.v -- edits of a program that leave its code alone: C55 a label on a line of its own, C56 unused definitions. *)
From Verif Require Import Base Proof_Base Model_Main Spec_Isa Spec_Text Spec_Asm Spec_Diag Spec_Prog Spec_Report Spec_Edit
  Proof_Prog Proof_Check Proof_Rewrite Prop_Program.

Lemma dsame_code : forall file src src' p p' more, program_means src p -> program_means src' p' -> small src -> small src' ->
  dsame (diagnose AsBuilt p) (diagnose AsBuilt p') ->
  count defines_label (body p') = count defines_label (body p) + more ->
  same_code file more (gaia file src) (gaia file src').
Proof.
  intros file src src' p p' more M M' B B' D C.
  destruct (program_cases file src p M B) as
    [(st & code & bin & E1 & R1 & _ & _ & G1 & I1 & _)|(n & m & w & o & lines & line & toks & E1 & R1 & G1 & X1 & _ & _ & _ & _ & P1)];
  destruct (program_cases file src' p' M' B') as
    [(st' & code' & bin' & E2 & R2 & _ & _ & G2 & I2 & _)|(n' & m' & w' & o' & lines' & line' & toks' & E2 & R2 & G2 & X2 & _ & _ & _ & _ & P2)];
  rewrite E1, E2 in D; cbn in D; try contradiction.
  - destruct D as [<- W]. eexists _, _. split; [exact G1|]. split; [exact G2|]. split; [reflexivity|]. split.
    + intros _. cbn [binary]. rewrite W in I1. split; [exact (image_unique _ _ _ I1 I2)|].
      destruct (C35_summary file src p _ M B G1 eq_refl) as (c1 & K1 & S1).
      destruct (C35_summary file src' p' _ M' B' G2 eq_refl) as (c2 & K2 & S2).
      rewrite R1 in K1. injection K1 as <-. rewrite R2 in K2. injection K2 as <-. rewrite C in S2. eauto.
    + intro K. destruct K. reflexivity.
  - subst m'. exists o, o'. split; [exact G1|]. split; [exact G2|]. split; [congruence|]. split; [intro; congruence|].
    intros _. do 7 eexists. split; [exact P1|exact P2].
Qed.

Lemma count_app : forall A (f : A -> bool) l l', count f (l ++ l') = count f l + count f l'.
Proof. intros. unfold count. rewrite filter_app, app_length. lia. Qed.
Lemma count_cons : forall A (f : A -> bool) x l, count f (x :: l) = (if f x then 1 else 0) + count f l.
Proof. intros. unfold count. cbn [filter]. destruct (f x); cbn [List.length]; lia. Qed.

Lemma body_app : forall pre x, ~ In SEnd pre -> body (pre ++ x) = pre ++ body x.
Proof.
  induction pre as [|s pre IH]; intros x H; [reflexivity|]. cbn [app body].
  destruct s; try (rewrite IH by (intro K; apply H; right; exact K); reflexivity). destruct H. left. reflexivity.
Qed.

Lemma body_stop : forall pre x, In SEnd pre -> body (pre ++ x) = body pre.
Proof.
  induction pre as [|s pre IH]; intros x H; [destruct H|]. cbn [app body].
  destruct s; try reflexivity; (destruct H as [H|H]; [discriminate|]); rewrite IH by exact H; reflexivity.
Qed.

Lemma body_count : forall (f : stmt -> bool) pre x y d, (forall z, count f (body x) + z = count f (body y) + z + d) ->
  ~ In SEnd pre -> count f (body (pre ++ x)) = count f (body (pre ++ y)) + d.
Proof. intros f pre x y d H N. rewrite !body_app, !count_app by exact N. specialize (H 0). lia. Qed.

Definition nobody : text -> Prop := fun _ => False.
Lemma avoids_nobody : forall p, Forall (avoids nobody) p.
Proof. intro p. apply Forall_forall. intros s _ n _ []. Qed.

(** ** C55 *)
Lemma own_line : forall l m o post n n' st st', deq nobody st st' ->
  dsame (diag_from AsBuilt n st (SInstr (Some l) m o :: post)) (diag_from AsBuilt n' st' (SLabel l :: SInstr None m o :: post)).
Proof.
  intros l m o post n n' st st' Q. cbn [diag_from diag_stmt]. rewrite (q_env _ _ _ Q l) by (intros []).
  destruct (lookup (d_env st') l) eqn:L; [reflexivity|]. rewrite (q_addr _ _ _ Q).
  pose proof (instr_eq nobody n (n' + 1) _ _ m o (define_eq nobody _ _ l (d_addr st') Q)) as I.
  specialize (I ltac:(intros ? _ [])).
  destruct (diag_instr AsBuilt n _ m o) as [s1|[m1 w1]], (diag_instr AsBuilt (n' + 1) _ m o) as [s2|[m2 w2]]; cbn in I; try contradiction.
  - apply diag_rest with (X := nobody); auto. apply avoids_nobody.
  - injection I as <- <-. reflexivity.
Qed.

Theorem C55_own_line : forall file src src' pre l m o post,
  program_means src (pre ++ SInstr (Some l) m o :: post) ->
  program_means src' (pre ++ SLabel l :: SInstr None m o :: post) -> small src -> small src' ->
  same_code file 0 (gaia file src) (gaia file src').
Proof.
  intros file src src' pre l m o post M M' B B'. eapply dsame_code; eauto.
  - apply diag_context with (X := nobody); [intros; apply own_line; assumption|apply avoids_nobody|apply deq_init].
  - rewrite Z.add_0_r. destruct (in_dec (fun a b : stmt => ltac:(repeat decide equality)) SEnd pre) as [K|K].
    + rewrite !body_stop by exact K. reflexivity.
    + rewrite !body_app, !count_app by exact K. cbn [body]. rewrite !count_cons. cbn. lia.
Qed.

(** an origin directly behind an origin makes the first one void *)
Theorem C55_two_origins : forall file src src' pre a b post,
  program_means src (pre ++ SOrg a :: SOrg b :: post) -> program_means src' (pre ++ SOrg b :: post) -> small src -> small src' ->
  same_code file 0 (gaia file src) (gaia file src').
Proof.
  intros file src src' pre a b post M M' B B'. eapply dsame_code; eauto.
  - apply diag_context with (X := nobody); [|apply avoids_nobody|apply deq_init].
    intros n n' st st' [QA QE QD QP]. cbn [diag_from diag_stmt]. cbn [d_env d_done]. apply diag_rest with (X := nobody); [apply avoids_nobody|].
    constructor; cbn; auto.
  - rewrite Z.add_0_r. destruct (in_dec (fun a b : stmt => ltac:(repeat decide equality)) SEnd pre) as [K|K].
    + rewrite !body_stop by exact K. reflexivity.
    + rewrite !body_app, !count_app by exact K. cbn [body]. rewrite !count_cons. cbn. lia.
Qed.

(** ** C56 *)
Definition definition (d : stmt) (n : text) : Prop := d = SLabel n \/ exists v, d = SConst n v.

Lemma fresh_env : forall X st n, (forall k, X k -> lookup (d_env st) k = None) -> X n -> lookup (d_env st) n = None.
Proof. auto. Qed.

(** the name is not in the table as long as nothing defines it *)
Lemma keeps_fresh : forall r k st s st' n, diag_stmt r k st s = inl st' -> ~ mentions s n -> lookup (d_env st) n = None -> lookup (d_env st') n = None.
Proof.
  assert (Ne : forall a b, a <> b -> text_eqb a b = false).
  { intros a b H. destruct (text_eqb a b) eqn:E; [|reflexivity]. apply text_eqb_eq in E. congruence. }
  assert (I : forall r k st m o st', diag_instr r k st m o = inl st' -> d_env st' = d_env st).
  { intros r k st m o st' H. unfold diag_instr in H.
    repeat match type of H with context [match ?x with _ => _ end] => destruct x; try discriminate end; injection H as <-; reflexivity. }
  intros r k st s st' n H N L. destruct s as [|l|l v|v| |[l|] m o]; cbn [diag_stmt] in H.
  - injection H as <-. exact L.
  - destruct (lookup (d_env st) l); [discriminate|]. injection H as <-. cbn. rewrite Ne; auto. intros ->. apply N. left. reflexivity.
  - destruct (lookup (d_env st) l); [discriminate|]. injection H as <-. cbn. rewrite Ne; auto. intros ->. apply N. left. reflexivity.
  - injection H as <-. exact L.
  - injection H as <-. exact L.
  - destruct (lookup (d_env st) l); [discriminate|]. rewrite (I _ _ _ _ _ _ H). cbn. rewrite Ne; auto. intros ->. apply N. left. reflexivity.
  - rewrite (I _ _ _ _ _ _ H). exact L.
Qed.

Lemma diag_unused : forall n d post pre, definition d n -> Forall (fun s => ~ mentions s n) pre -> Forall (fun s => ~ mentions s n) post ->
  forall k k' st st', deq (eq n) st st' -> lookup (d_env st) n = None -> lookup (d_env st') n = None ->
  dsame (diag_from AsBuilt k st (pre ++ post)) (diag_from AsBuilt k' st' (pre ++ d :: post)).
Proof.
  intros n d post pre D Fp Fq.
  assert (Av : forall s, ~ mentions s n -> avoids (eq n) s) by (intros s H x Hx <-; auto).
  assert (Fq' : Forall (avoids (eq n)) post) by (eapply Forall_impl; [|exact Fq]; auto).
  induction Fp as [|s pre A Fp IH]; intros k k' st st' Q L L'.
  - cbn [app]. pose proof Q as [QA QE QD QP].
    assert (S : forall v, deq (eq n) st (d_define st' n v)).
    { intro v. constructor; cbn; auto. intros x Hx. cbn. destruct (text_eqb n x) eqn:E; [apply text_eqb_eq in E; congruence|]. apply QE. exact Hx. }
    destruct D as [-> | (v & ->)]; cbn [diag_from diag_stmt]; rewrite L'; apply diag_rest with (X := eq n); auto.
  - cbn [app diag_from]. pose proof (stmt_eq (eq n) k k' st st' s Q (Av s A)) as S.
    assert (K1 := fun st1 => keeps_fresh AsBuilt k st s st1 n). assert (K2 := fun st1 => keeps_fresh AsBuilt k' st' s st1 n).
    destruct s; try (apply (close_eq (eq n)); exact Q);
    destruct (diag_stmt AsBuilt k st _) as [s1|[m w]], (diag_stmt AsBuilt k' st' _) as [s2|[m' w']]; cbn in S; try contradiction;
      try (apply IH; [exact S|apply K1; auto|apply K2; auto]); injection S as <- <-; reflexivity.
Qed.

Theorem C56_unused : forall file src src' pre post d n, definition d n ->
  Forall (fun s => ~ mentions s n) pre -> Forall (fun s => ~ mentions s n) post -> ~ In SEnd pre ->
  program_means src (pre ++ post) -> program_means src' (pre ++ d :: post) -> small src -> small src' ->
  same_code file 1 (gaia file src) (gaia file src').
Proof.
  intros file src src' pre post d n D Fp Fq NE M M' B B'. eapply dsame_code; eauto.
  - eapply diag_unused; eauto. apply deq_init.
  - rewrite !body_app, !count_app by exact NE. destruct D as [-> | (v & ->)]; cbn [body]; rewrite !count_cons; cbn [defines_label defines]; lia.
Qed.

(** ** Cases *)
Lemma means_lines : forall lines p, forallb fitsb lines = true -> statements lines = Some p -> program_means (join lines) p.
Proof. intros lines p F E. destruct (program_check lines p F E) as (_ & _ & M). exact M. Qed.

Example C55_case : exists file src src' pre l m o post out,
  program_means src (pre ++ SInstr (Some l) m o :: post) /\
  program_means src' (pre ++ SLabel l :: SInstr None m o :: post) /\ small src /\ small src' /\
  gaia file src = Ret out /\ exit_code out = 0 /\ binary out = [208; 2; 169; 1; 76; 2; 0] /\
  exists out', gaia file src' = Ret out' /\ exit_code out' = 0 /\ binary out' = binary out.
Proof.
  set (l1 := [T " bne L"; T "K: lda #1"; T "L: jmp K"]). set (l2 := [T " bne L"; T "K"; T " lda #1"; T "L: jmp K"]).
  exists (T "a.asm"), (join l1), (join l2), [SInstr None "BNE" (ODir (Lab (T "L")))], (T "K"), "LDA"%string, (OImm (Num 1)), [SInstr (Some (T "L")) "JMP" (ODir (Lab (T "K")))].
  eexists.
  assert (M : program_means (join l1) ([SInstr None "BNE" (ODir (Lab (T "L")))] ++ SInstr (Some (T "K")) "LDA" (OImm (Num 1)) :: [SInstr (Some (T "L")) "JMP" (ODir (Lab (T "K")))]))
    by (apply means_lines; vm_compute; reflexivity).
  assert (M' : program_means (join l2) ([SInstr None "BNE" (ODir (Lab (T "L")))] ++ SLabel (T "K") :: SInstr None "LDA" (OImm (Num 1)) :: [SInstr (Some (T "L")) "JMP" (ODir (Lab (T "K")))]))
    by (apply means_lines; vm_compute; reflexivity).
  assert (B : small (join l1)) by (vm_compute; reflexivity). assert (B' : small (join l2)) by (vm_compute; reflexivity).
  do 4 (split; [assumption|]). split; [vm_compute; reflexivity|]. split; [reflexivity|]. split; [reflexivity|].
  destruct (C55_own_line (T "a.asm") _ _ _ _ _ _ _ M M' B B') as (o & o' & G & G' & X & S & _).
  exists o'. split; [exact G'|]. vm_compute in G. injection G as <-. cbn in X, S. split; [symmetry; exact X|]. destruct (S eq_refl) as [S1 _]. symmetry. exact S1.
Qed.

Example C55_origins_case : exists file src src' pre a b post out,
  program_means src (pre ++ SOrg a :: SOrg b :: post) /\ program_means src' (pre ++ SOrg b :: post) /\ small src /\ small src' /\ a <> b /\
  gaia file src = Ret out /\ exit_code out = 0 /\ binary out = [0; 0; 234; 169; 7].
Proof.
  set (l1 := [T ".org 2"; T "nop"; T ".org 1"; T ".org 3"; T "lda #7"]). set (l2 := [T ".org 2"; T "nop"; T ".org 3"; T "lda #7"]).
  exists (T "a.asm"), (join l1), (join l2), [SOrg 2; SInstr None "NOP" ONone], 1, 3, [SInstr None "LDA" (OImm (Num 7))]. eexists.
  split; [apply means_lines; vm_compute; reflexivity|]. split; [apply means_lines; vm_compute; reflexivity|].
  split; [vm_compute; reflexivity|]. split; [vm_compute; reflexivity|]. split; [discriminate|]. split; [vm_compute; reflexivity|]. split; reflexivity.
Qed.

Example C56_case : exists file src src' pre post d n out,
  definition d n /\ Forall (fun s => ~ mentions s n) pre /\ Forall (fun s => ~ mentions s n) post /\ ~ In SEnd pre /\
  program_means src (pre ++ post) /\ program_means src' (pre ++ d :: post) /\ small src /\ small src' /\
  gaia file src = Ret out /\ exit_code out = 0 /\ binary out = [208; 0; 165; 5] /\ pre <> [] /\ post <> [].
Proof.
  set (l1 := [T " bne L"; T "L: lda 5"]). set (l2 := [T " bne L"; T "unused = $1234"; T "L: lda 5"]).
  exists (T "a.asm"), (join l1), (join l2), [SInstr None "BNE" (ODir (Lab (T "L")))], [SInstr (Some (T "L")) "LDA" (ODir (Num 5))], (SConst (T "UNUSED") 0x1234), (T "UNUSED"). eexists.
  split; [right; eexists; reflexivity|].
  split; [repeat constructor; intros [K|(lab & m & o & K & E)]; [discriminate|injection K as <- <- <-; discriminate]|].
  split; [repeat constructor; intros [K|(lab & m & o & K & E)]; [discriminate|injection K as <- <- <-; discriminate]|].
  split; [intros [K|[]]; discriminate|].
  split; [apply means_lines; vm_compute; reflexivity|]. split; [apply means_lines; vm_compute; reflexivity|].
  split; [vm_compute; reflexivity|]. split; [vm_compute; reflexivity|]. split; [vm_compute; reflexivity|]. split; [reflexivity|].
  split; [reflexivity|]. split; discriminate.
Qed.
