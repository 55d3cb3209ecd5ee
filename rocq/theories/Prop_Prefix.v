(** Prop_Prefix.v -- C85: what can go wrong when the end of a program is cut off. *)
From Verif Require Import Base Proof_Base Model_Main Spec_Isa Spec_Text Spec_Asm Spec_Diag Spec_Prog Spec_Report Spec_Edit
  Proof_Core Proof_Modes Proof_Diag Proof_Ref Proof_Decimal Proof_Prog Proof_Check Proof_Rewrite Proof_Sim2 Proof_Image Prop_Program Prop_Edit Prop_Blame Prop_Supply.

(** an operand left open is a label that is not yet known, of a branch or a jump *)
Definition left_open (p : list stmt) (n : Z) (q : placed) : Prop :=
  pl_bytes q = None -> exists lab m o l, nth_error p (Z.to_nat (pl_line q - n)) = Some (SInstr lab m o) /\ n <= pl_line q /\
    it_expr (pl_item q) = operand_expr o /\ operand_expr o = Some (Lab l) /\ (is_branch_name m = true \/ is_jump_name m = true).

Lemma instr_open : forall n st m o st', diag_instr AsBuilt n st m o = inl st' ->
  exists q, d_done st' = d_done st ++ [q] /\ (forall lab, left_open [SInstr lab m o] n q).
Proof.
  intros n st m o st' K. unfold diag_instr in K. destruct (unresolved (d_env st) o) eqn:U; cbn [andb] in K.
  - destruct (negb _) eqn:Bj; [discriminate|]. destruct (denoted_mode m o _) as [md|]; [|discriminate].
    destruct (has_mode AsBuilt m md _) as [[op size]|]; [|discriminate]. injection K as <-. cbn [d_done].
    eexists. split; [reflexivity|]. intros lab _. unfold unresolved in U. destruct (operand_expr o) as [[v|l]|] eqn:Eo; try discriminate.
    exists lab, m, o, l. cbn [pl_line pl_item it_expr]. rewrite Z.sub_diag. split; [reflexivity|]. split; [lia|]. split; [exact (eq_sym Eo)|]. split; [exact Eo|].
    apply Bool.negb_false_iff, Bool.orb_true_iff in Bj. exact Bj.
  - destruct (denoted_mode m o _) as [md|]; [|discriminate]. destruct (has_mode AsBuilt m md _) as [[op size]|]; [|discriminate].
    destruct (encode_operand _ _ _); [|discriminate]. injection K as <-. cbn [d_done]. eexists. split; [reflexivity|]. intros lab B. discriminate.
Qed.

Lemma accepts_open : forall p n st st', accepts AsBuilt n st p = Some st' ->
  exists more, d_done st' = d_done st ++ more /\ Forall (left_open p n) more.
Proof.
  induction p as [|s p IH]; intros n st st' H.
  - injection H as <-. exists []. rewrite app_nil_r. auto.
  - assert (N : s <> SEnd) by (intros ->; discriminate). rewrite accepts_step in H by exact N.
    destruct (diag_stmt AsBuilt n st s) as [st1|] eqn:E; [|discriminate].
    assert (exists a, d_done st1 = d_done st ++ a /\ Forall (left_open [s] n) a) as (a & A1 & A2).
    { destruct s as [|l|l v|v| |[l|] m o]; cbn [diag_stmt] in E;
        try (destruct (lookup (d_env st) l); [discriminate|]);
        try (injection E as <-; exists []; rewrite app_nil_r; auto; fail);
        (destruct (instr_open _ _ _ _ _ E) as (q & D & O); exists [q]; split; [exact D|]; constructor; [apply O|constructor]). }
    destruct (IH _ _ _ H) as (b & B1 & B2).
    exists (a ++ b). rewrite B1, A1, app_assoc. split; [reflexivity|]. apply Forall_app. split.
    + eapply Forall_impl; [|exact A2]. intros q O B. destruct (O B) as (lab & m & o & l & K & R). exists lab, m, o, l. split; [|exact R].
      destruct (Z.to_nat (pl_line q - n)) as [|i]; [exact K|]. cbn in K. destruct i; discriminate.
    + eapply Forall_impl; [|exact B2]. intros q O B. destruct (O B) as (lab & m & o & l & K & G & R). exists lab, m, o, l. split; [|split; [lia|exact R]].
      replace (Z.to_nat (pl_line q - n)) with (S (Z.to_nat (pl_line q - (n + 1)))) by lia. exact K.
Qed.

Lemma complete_open : forall e l k m, complete AsBuilt e l = inr (k, m) ->
  exists p, In p l /\ pl_line p = k /\ pl_bytes p = None /\ encode_operand AsBuilt e (pl_item p) = None /\
    m = match (match it_expr (pl_item p) with Some x => eval e x | None => None end) with
        | None => "label definition was not found"%string | Some _ => "branch offset too far away"%string end.
Proof.
  induction l as [|p l IH]; intros k m H; [discriminate|]. cbn [complete] in H.
  destruct (pl_bytes p) as [bs|] eqn:B.
  - destruct (complete AsBuilt e l) as [c'|[k' m']]; [discriminate|]. injection H as -> ->. destruct (IH _ _ eq_refl) as (q & I & R). exists q. split; [right; exact I|exact R].
  - destruct (encode_operand AsBuilt e (pl_item p)) as [bs|] eqn:En.
    + destruct (complete AsBuilt e l) as [c'|[k' m']]; [discriminate|]. injection H as -> ->. destruct (IH _ _ eq_refl) as (q & I & R). exists q. split; [right; exact I|exact R].
    + injection H as <- <-. exists p. split; [left; reflexivity|]. auto.
Qed.

Lemma in_end : forall p, In SEnd p \/ ~ In SEnd p.
Proof.
  induction p as [|s p IH]; [right; intros []|]. destruct s; try (destruct IH as [I|N]; [left; right; exact I|right; intros [K|K]; [discriminate|exact (N K)]]).
  left; left; reflexivity.
Qed.

Theorem C85_cut : forall file src src' p q o, program_means src (p ++ q) -> program_means src' p -> small src -> small src' ->
  gaia file src = Ret o -> exit_code o = 0 ->
  exists o', gaia file src' = Ret o' /\
    (exit_code o' = 0 \/
     (* a branch or a jump to a label that was cut off *)
     exists k lab m op l line pos, nth_error p k = Some (SInstr lab m op) /\ (is_branch_name m = true \/ is_jump_name m = true) /\
       operand_expr op = Some (Lab l) /\ (exists s, In s q /\ defines s = Some l) /\ (forall s, In s p -> defines s <> Some l) /\
       Report file (1 + Z.of_nat k) "label definition was not found" line pos (stdout o')).
Proof.
  intros file src src' p q o M M' B B' G X.
  destruct (assembled file src _ o M B G X) as (fin & code & D & _). destruct (diagnose_state _ _ _ _ _ _ D) as [Ac Co].
  destruct (program_cases file src' _ M' B') as [(s1 & c1 & b1 & _ & _ & _ & _ & G1 & _)|(k & m & w & o1 & lines & ln & toks & D' & _ & G1 & _ & _ & _ & _ & _ & R')].
  { eexists. split; [exact G1|]. left. reflexivity. }
  exists o1. split; [exact G1|]. right. unfold diagnose in D'. pose proof (diag_body p 1 (mkD 0 [] [])) as Db.
  destruct (in_end p) as [I|NE].
  { exfalso. rewrite body_stop in Ac by exact I. rewrite Ac in Db. rewrite Db in D'. unfold d_close in D'. rewrite Co in D'. discriminate. }
  rewrite body_app in Ac by exact NE. rewrite accepts_app in Ac. rewrite body_id in Db by exact NE.
  destruct (accepts AsBuilt 1 (mkD 0 [] []) p) as [st|] eqn:A; [|discriminate]. rewrite Db in D'. unfold d_close in D'.
  destruct (complete AsBuilt (d_env st) (d_done st)) as [c|[k' m']] eqn:C; [discriminate|]. injection D' as -> -> <-.
  destruct (complete_open _ _ _ _ C) as (it & I & L & Op & En & Em).
  destruct (accepts_open _ _ _ _ A) as (more & Dm & Or). cbn [d_done app] in Dm.
  assert (I' : In it more) by (rewrite <- Dm; exact I).
  rewrite Forall_forall in Or. destruct (Or _ I' Op) as (lab & mn & op & l & Nth & Ge & Xe & El & Bj).
  destruct (accepts_lines _ _ _ _ Ac) as (more' & Dm' & _).
  assert (Fi : finished (d_env fin) it).
  { apply complete_finished in Co. rewrite Forall_forall in Co. apply Co. rewrite Dm'. apply in_or_app. left. exact I. }
  destruct Fi as [Fi|Fi]; [congruence|].
  assert (SA : state_after AsBuilt p = Some st) by exact A.
  assert (SF : state_after AsBuilt (body (p ++ q)) = Some fin) by (unfold state_after; rewrite body_app, accepts_app, A by exact NE; exact Ac).
  destruct (state_after_pass1 _ _ _ SA) as (P1 & S1 & _). destruct (accepts_pass1 _ _ _ _ _ S1 Ac) as (P2 & _ & _).
  destruct (pass1_extends _ _ _ _ P2) as [_ Ext]. cbn [p1_of p1_env] in Ext.
  rewrite Xe, El in Em. unfold encode_operand in En, Fi. rewrite Xe, El in En, Fi. cbn [eval] in *.
  destruct (lookup (d_env st) l) as [v|] eqn:Lk.
  { exfalso. rewrite (Ext _ _ Lk) in Fi. congruence. }
  destruct (lookup (d_env fin) l) as [v|] eqn:Lf; [|congruence].
  destruct (state_after_env _ _ _ SA) as [_ Env]. destruct (state_after_env _ _ _ SF) as [_ Envf].
  assert (Np : forall s, In s p -> defines s <> Some l).
  { intros s Is Ds. destruct (proj2 (Env l) (ex_intro _ s (conj Is Ds))) as (u & U). congruence. }
  exists (Z.to_nat (pl_line it - 1)), lab, mn, op, l, (before_nul ln), (place_offset toks AtOperand).
  split; [exact Nth|]. split; [exact Bj|]. split; [exact El|]. split; [|split; [exact Np|]].
  - destruct (proj1 (Envf l) (ex_intro _ v Lf)) as (s & Is & Ds). rewrite body_app in Is by exact NE. apply in_app_or in Is.
    destruct Is as [Is|Is]; [exfalso; exact (Np s Is Ds)|]. exists s. split; [|exact Ds].
    clear - Is. induction q as [|x q IH]; [destruct Is|]. destruct x; cbn [body] in Is; try destruct Is as [<- |Is]; try (left; reflexivity); try (right; apply IH; exact Is). destruct Is.
  - subst m. replace (1 + Z.of_nat (Z.to_nat (pl_line it - 1))) with k by lia. exact R'.
Qed.

Example C85_case : exists file src src' p q o o',
  program_means src (p ++ q) /\ program_means src' p /\ small src /\ small src' /\ gaia file src = Ret o /\ exit_code o = 0 /\
  gaia file src' = Ret o' /\ Report file 2 "label definition was not found" (T " jmp THERE") (Some 5%nat) (stdout o').
Proof.
  set (l0 := [T "HERE beq HERE"; T " jmp THERE"]). set (l1 := [T "THERE nop"]).
  destruct (statements l0) as [p|] eqn:E0; [|vm_compute in E0; discriminate].
  destruct (statements l1) as [q|] eqn:E1; [|vm_compute in E1; discriminate].
  exists (T "a.asm"), (join (l0 ++ l1)), (join l0), p, q. vm_compute in E0, E1. injection E0 as <-. injection E1 as <-.
  do 2 eexists. do 2 (split; [apply means_lines; vm_compute; reflexivity|]). do 2 (split; [vm_compute; reflexivity|]).
  split; [vm_compute; reflexivity|]. split; [reflexivity|]. split; [vm_compute; reflexivity|].
  exists (T " jmp THERE"). split.
  - exists []. split; [reflexivity|]. split; [constructor|]. exists (T " jmp THER"), "E"%char. split; [reflexivity|].
    intros [K|[K|[K|K]]]; vm_compute in K; discriminate.
  - vm_compute. reflexivity.
Qed.
