(** Proof_Reloc.v -- the reference assembler at two origins. *)
From Verif Require Import Base Proof_Base Model_Main Spec_Isa Spec_Text Spec_Asm Spec_Diag Spec_Prog Spec_Report Spec_Edit
  Proof_Core Proof_Modes Proof_Diag Proof_Ref Proof_Sim2 Proof_Image Proof_Prog Proof_Place.

Lemma pass1_no_redefine : forall r p st fin n v, ~ In SEnd p -> pass1 r st p = Some fin -> lookup (p1_env st) n = Some v ->
  forall s, In s p -> defines s = Some n -> False.
Proof.
  induction p as [|s p IH]; intros st fin n v N H L s0 I D; [destruct I|].
  assert (Ns : s <> SEnd) by (intros ->; apply N; left; reflexivity). rewrite pass1_cons in H by exact Ns.
  destruct (pass1_stmt r st s) as [st1|] eqn:E; [|discriminate]. destruct I as [-> |I].
  - pose proof (pass1_stmt_env _ _ _ _ Ns E) as V. rewrite D in V. destruct V. congruence.
  - destruct (pass1_stmt_extends _ _ _ _ E) as [_ X]. eapply (IH st1 fin n v); eauto. intro K; apply N; right; exact K.
Qed.

Lemma defined_once : forall r p st fin, ~ In SEnd p -> pass1 r st p = Some fin ->
  forall s s' n, In s p -> In s' p -> defines s = Some n -> defines s' = Some n -> s = s'.
Proof.
  induction p as [|s p IH]; intros st fin N H s1 s2 n I1 I2 D1 D2; [destruct I1|].
  assert (Ns : s <> SEnd) by (intros ->; apply N; left; reflexivity). rewrite pass1_cons in H by exact Ns.
  destruct (pass1_stmt r st s) as [st1|] eqn:E; [|discriminate].
  assert (N' : ~ In SEnd p) by (intro K; apply N; right; exact K).
  assert (F : forall s0, defines s = Some n -> In s0 p -> defines s0 = Some n -> False).
  { intros s0 D I0 D0. pose proof (pass1_stmt_env _ _ _ _ Ns E) as V. rewrite D in V. destruct V as [_ V].
    eapply (pass1_no_redefine r p st1 fin n); eauto. rewrite V. cbn [lookup]. rewrite text_eqb_refl. reflexivity. }
  destruct I1 as [<- |I1], I2 as [<- |I2]; auto.
  - destruct (F s2); auto.
  - destruct (F s1); auto.
  - eapply IH; eauto.
Qed.

Lemma constant_dec : forall p n, constant p n \/ ~ constant p n.
Proof.
  intros p n. unfold constant. generalize (body p). induction l as [|s l IH]; [right; intros (v & [])|].
  destruct IH as [(v & K)|K]; [left; exists v; right; exact K|].
  assert (D : (exists v, s = SConst n v) \/ ~ (exists v, s = SConst n v)).
  { destruct s as [|x|x w|w| |lab m o]; try (right; intros (v & E); discriminate).
    destruct (text_eqb x n) eqn:E; [apply text_eqb_eq in E; subst; left; eauto|right].
    intros (v & F). injection F as -> _. rewrite text_eqb_refl in E. discriminate. }
  destruct D as [(v & ->)|D]; [left; exists v; left; reflexivity|]. right. intros (v & [F|F]); eauto.
Qed.

Lemma denoted_same : forall m o v v', (is_branch_name m = true \/ is_jump_name m = true \/ v = v' \/ (256 <= v /\ 256 <= v')) ->
  denoted_mode m o (Some v) = denoted_mode m o (Some v').
Proof.
  intros m o v v' H. unfold denoted_mode. destruct (is_branch_name m); [reflexivity|]. destruct (is_jump_name m); [reflexivity|].
  destruct H as [H|[H|[-> |[H H']]]]; try discriminate; [reflexivity|].
  assert ((v <=? 255) = false) as E by lia. assert ((v' <=? 255) = false) as E' by lia.
  assert ((255 <? v) = true) as F by lia. assert ((255 <? v') = true) as F' by lia.
  destruct o; unfold by_size; rewrite ?E, ?E', ?F, ?F'; reflexivity.
Qed.

Lemma denoted_large : forall m o v md x, is_branch_name m = false -> operand_expr o = Some x -> (is_jump_name m = true \/ 256 <= v) ->
  denoted_mode m o (Some v) = Some md -> wide md = true.
Proof.
  intros m o v md x B X H D. unfold denoted_mode in D. rewrite B in D.
  destruct (is_jump_name m); [destruct o; try discriminate; injection D as <-; reflexivity|].
  destruct H as [H|H]; [discriminate|].
  assert ((v <=? 255) = false) as E by lia. assert ((255 <? v) = true) as F by lia.
  destruct o; try discriminate X; unfold by_size in D; rewrite ?E, ?F in D; try discriminate; injection D as <-; reflexivity.
Qed.

Lemma denoted_unknown : forall m o md x, operand_expr o = Some x -> denoted_mode m o None = Some md -> is_branch_name m = true \/ is_jump_name m = true.
Proof.
  intros m o md x X D. unfold denoted_mode in D. destruct (is_branch_name m); auto. destruct (is_jump_name m); auto. destruct o; discriminate.
Qed.

Section Move.
Variables (P : list stmt) (a b : Z).
Notation d := (b - a).
Hypothesis Hm : movable P a b.

Definition rel_env (e e' : env) : Prop := forall n,
  match lookup e n, lookup e' n with
  | None, None => True
  | Some v, Some v' => (constant P n /\ v' = v) \/ (~ constant P n /\ v' = v + d /\ a <= v)
  | _, _ => False
  end.

Definition fit_item (it : item) : Prop :=
  (is_branch_name (it_name it) = true <-> it_mode it = REL) /\
  forall n, it_expr it = Some (Lab n) ->
    if is_branch_name (it_name it) then ~ constant P n else wide (it_mode it) = true \/ constant P n.

Definition rel_item (it it' : item) : Prop :=
  fit_item it /\ it' = mkItem (it_addr it + d) (it_name it) (it_mode it) (it_opcode it) (it_size it) (it_expr it).

Record rel1 (st st' : pass1_state) : Prop := {
  m_addr : p1_addr st' = p1_addr st + d;
  m_low : a <= p1_addr st;
  m_env : rel_env (p1_env st) (p1_env st');
  m_items : Forall2 rel_item (p1_items st) (p1_items st') }.

Lemma rel_define : forall e e' n v v', rel_env e e' -> ((constant P n /\ v' = v) \/ (~ constant P n /\ v' = v + d /\ a <= v)) ->
  rel_env ((n, v) :: e) ((n, v') :: e').
Proof. intros e e' n v v' R H k. cbn [lookup]. destruct (text_eqb n k) eqn:E; [apply text_eqb_eq in E; subst k; exact H|apply R]. Qed.

Lemma rel_lookup_none : forall e e' n, rel_env e e' -> lookup e n = None -> lookup e' n = None.
Proof. intros e e' n R H. specialize (R n). rewrite H in R. destruct (lookup e' n); [contradiction|reflexivity]. Qed.

Lemma instr_move : forall lab m o st st' st1, In (SInstr lab m o) (body P) -> rel1 st st' -> pass1_instr AsBuilt st m o = Some st1 ->
  exists st1', pass1_instr AsBuilt st' m o = Some st1' /\ rel1 st1 st1'.
Proof.
  intros lab m o st st' st1 I [RA RL RE RI] H. destruct Hm as [_ Mv]. specialize (Mv lab m o).
  unfold pass1_instr in *. fold (value_of (p1_env st) o) in H. fold (value_of (p1_env st') o).
  destruct (denoted_mode m o (value_of (p1_env st) o)) as [md|] eqn:D; [|discriminate].
  destruct (has_mode AsBuilt m md _) as [[op size]|] eqn:K; [|discriminate]. injection H as <-.
  assert (V : denoted_mode m o (value_of (p1_env st') o) = Some md /\
    (match value_of (p1_env st') o with Some _ => true | None => false end) = (match value_of (p1_env st) o with Some _ => true | None => false end) /\
    forall n, operand_expr o = Some (Lab n) -> if is_branch_name m then ~ constant P n else wide md = true \/ constant P n).
  { unfold value_of in *. destruct (operand_expr o) as [[v|n]|] eqn:X; cbn [eval] in *.
    - split; [exact D|]. split; [reflexivity|]. discriminate.
    - specialize (Mv n I eq_refl). specialize (RE n). destruct (lookup (p1_env st) n) as [v|] eqn:L1, (lookup (p1_env st') n) as [v'|] eqn:L2; try contradiction.
      + assert (S : is_branch_name m = true \/ is_jump_name m = true \/ v = v' \/ (256 <= v /\ 256 <= v')).
        { destruct (is_branch_name m); [auto|]. destruct Mv as [J|[C|[B1 B2]]]; auto; destruct RE as [[C1 ->]|(C1 & -> & B)]; auto; try contradiction.
          right; right; right. lia. }
        rewrite <- (denoted_same m o v v' S). split; [exact D|]. split; [reflexivity|]. intros k E. injection E as <-.
        destruct (is_branch_name m) eqn:Br; [exact Mv|]. destruct (constant_dec P n) as [C|C]; [right; exact C|left].
        eapply (denoted_large m o v md (Lab n)); eauto. destruct Mv as [J|[C'|[B1 B2]]]; [left; exact J|contradiction|].
        destruct RE as [[C1 ->]|(C1 & -> & B)]; [contradiction|]. right. lia.
      + split; [exact D|]. split; [reflexivity|]. intros k E. injection E as <-.
        destruct (is_branch_name m) eqn:Br; [exact Mv|]. left. destruct (denoted_unknown m o md (Lab n) X D) as [J|J]; [congruence|].
        unfold denoted_mode in D. rewrite Br, J in D. destruct o; try discriminate; injection D as <-; reflexivity.
    - split; [exact D|]. split; [reflexivity|]. discriminate. }
  destruct V as (V1 & V2 & V3). rewrite V1, V2, K. eexists. split; [reflexivity|].
  assert (0 < size). { destruct (has_mode_bytes _ _ _ _ _ _ K) as [Es _]. destruct (narrow md), (wide md); lia. }
  constructor; cbn [p1_addr p1_env p1_items]; auto; try lia. apply Forall2_app; [exact RI|]. constructor; [|constructor].
  split; [|rewrite RA; reflexivity]. split; cbn [it_name it_mode it_expr]; [|exact V3]. split; intro Q.
  - destruct (denoted_branch _ _ _ _ Q D). assumption.
  - subst md. destruct (denoted_rel _ _ _ D). assumption.
Qed.

Lemma stmt_move : forall s st st' st1, In s (body P) -> (forall v, s <> SOrg v) -> s <> SEnd ->
  (forall n, defines s = Some n -> constant P n -> exists v, s = SConst n v) ->
  rel1 st st' -> pass1_stmt AsBuilt st s = Some st1 ->
  exists st1', pass1_stmt AsBuilt st' s = Some st1' /\ rel1 st1 st1'.
Proof.
  intros s st st' st1 I NO NE U R H. pose proof R as [RA RL RE RI].
  assert (D : forall n v v' st2, ((constant P n /\ v' = v) \/ (~ constant P n /\ v' = v + d /\ a <= v)) -> define st n v = Some st2 ->
    exists st2', define st' n v' = Some st2' /\ rel1 st2 st2').
  { intros n v v' st2 W F. unfold define in *. destruct (lookup (p1_env st) n) eqn:L; [discriminate|]. injection F as <-.
    rewrite (rel_lookup_none _ _ _ RE L). eexists. split; [reflexivity|]. constructor; cbn [p1_addr p1_env p1_items]; auto. apply rel_define; auto. }
  assert (A : forall n, (forall v, s <> SConst n v) -> defines s = Some n -> (constant P n /\ p1_addr st' = p1_addr st) \/ (~ constant P n /\ p1_addr st' = p1_addr st + d /\ a <= p1_addr st)).
  { intros n C Dn. right. split; [|split; [exact RA|exact RL]]. intro K. destruct (U n Dn K) as (v & E). exact (C v E). }
  destruct s as [|n|n v|v| |[n|] m o]; cbn [pass1_stmt] in *.
  - injection H as <-. eauto.
  - eapply D; [|exact H]. apply A; [discriminate|reflexivity].
  - eapply D; [|exact H]. left. split; [exists v; exact I|reflexivity].
  - destruct (NO v). reflexivity.
  - congruence.
  - destruct (define st n (p1_addr st)) as [st2|] eqn:F; [|discriminate].
    destruct (D n _ (p1_addr st') st2 (A n ltac:(discriminate) eq_refl) F) as (st2' & -> & R2). eapply instr_move; eauto.
  - eapply instr_move; eauto.
Qed.

Lemma pass1_move : forall p st st' fin, (forall s, In s p -> In s (body P)) -> ~ In SEnd p ->
  (forall s n, In s p -> defines s = Some n -> constant P n -> exists v, s = SConst n v) ->
  rel1 st st' -> pass1 AsBuilt st p = Some fin -> exists fin', pass1 AsBuilt st' p = Some fin' /\ rel1 fin fin'.
Proof.
  induction p as [|s p IH]; intros st st' fin I N U R H.
  - injection H as <-. exists st'. split; [reflexivity|exact R].
  - assert (Ns : s <> SEnd) by (intros ->; apply N; left; reflexivity). rewrite pass1_cons in * by exact Ns.
    destruct (pass1_stmt AsBuilt st s) as [st1|] eqn:E; [|discriminate].
    destruct (stmt_move s st st' st1) as (st1' & -> & R1); auto.
    { apply I. left; reflexivity. }
    { intros v ->. destruct Hm as [NO _]. apply (NO v). specialize (I (SOrg v) (or_introl eq_refl)). revert I. clear.
      generalize P. induction P0 as [|s l IH]; cbn [body]; [tauto|]. destruct s; cbn; try tauto; intros [K|K]; try discriminate; auto. }
    { intros n D C. eapply U; eauto. left; reflexivity. }
    eapply IH; eauto; [intros; apply I; right; assumption|intro K; apply N; right; exact K|intros; eapply U; eauto; right; assumption].
Qed.

(** the second pass *)
Lemma pass2_move : forall e e' its its' code, rel_env e e' -> Forall2 rel_item its its' -> pass2 AsBuilt e its = Some code ->
  exists code', pass2 AsBuilt e' its' = Some code' /\
    relocated e (constant P) d (map (fun it => (it_name it, it_expr it)) its) code code'.
Proof.
  intros e e' its its' code RE F. revert code. induction F as [|it it' its its' [[Fr Fi] ->] F IH]; intros code H.
  - injection H as <-. exists []. split; [reflexivity|constructor].
  - cbn [pass2] in H. destruct (encode_operand AsBuilt e it) as [bs|] eqn:E; [|discriminate].
    destruct (pass2 AsBuilt e its) as [c|] eqn:E2; [|discriminate]. injection H as <-.
    destruct (IH c eq_refl) as (c' & Q & R). cbn [pass2 map it_addr it_opcode].
    set (it' := mkItem (it_addr it + d) (it_name it) (it_mode it) (it_opcode it) (it_size it) (it_expr it)).
    assert (Same : encode_operand AsBuilt e' it' = Some bs -> (is_branch_name (it_name it) = true \/ forall n, it_expr it = Some (Lab n) -> constant P n) ->
      exists code', (match encode_operand AsBuilt e' it', pass2 AsBuilt e' its' with Some bs, Some l => Some ((it_addr it + d, it_opcode it :: bs) :: l) | _, _ => None end) = Some code' /\
        relocated e (constant P) d ((it_name it, it_expr it) :: map (fun it => (it_name it, it_expr it)) its) ((it_addr it, it_opcode it :: bs) :: c) code').
    { intros K J. rewrite K, Q. eexists. split; [reflexivity|]. apply rel_same; auto. }
    unfold encode_operand in E, Same |- *. cbn [it' it_expr it_mode it_addr] in Same |- *. fold it' in Same |- *.
    destruct (it_expr it) as [x|] eqn:X; [|apply Same; [exact E|right; discriminate]].
    destruct x as [v|n]; cbn [eval] in *; [apply Same; [exact E|right; discriminate]|].
    specialize (Fi n eq_refl). specialize (RE n). destruct (lookup e n) as [v|] eqn:L; [|discriminate].
    destruct (lookup e' n) as [v'|]; [|contradiction]. destruct (is_branch_name (it_name it)) eqn:Br.
    + destruct Fr as [Fr _]. rewrite (Fr eq_refl) in *. destruct RE as [[C _]|(_ & -> & _)]; [contradiction|].
      apply Same; [|left; reflexivity]. cbv zeta in E |- *. replace (v + d - (it_addr it + d + 2)) with (v - (it_addr it + 2)) by lia. exact E.
    + destruct (it_mode it) eqn:M; try (destruct Fr as [_ Fr]; discriminate (Fr eq_refl));
      destruct RE as [[C ->]|(C & -> & _)]; try (apply Same; [exact E|right; intros k K; injection K as <-; exact C]);
      try (destruct Fi as [Fi|Fi]; [discriminate Fi|contradiction]);
      injection E as <-; rewrite Q; eexists; (split; [reflexivity|]); eapply rel_label; eauto.
Qed.
End Move.

Lemma pass1_instructions : forall p st fin, ~ In SEnd p -> pass1 AsBuilt st p = Some fin ->
  map (fun it => (it_name it, it_expr it)) (p1_items fin) = map (fun it => (it_name it, it_expr it)) (p1_items st) ++ instructions p.
Proof.
  intros p st fin N. unfold instructions. rewrite (body_id p N). revert st fin N. induction p as [|s p IH]; intros st fin N H.
  - injection H as <-. cbn. rewrite app_nil_r. reflexivity.
  - assert (Ns : s <> SEnd) by (intros ->; apply N; left; reflexivity). rewrite pass1_cons in H by exact Ns.
    destruct (pass1_stmt AsBuilt st s) as [st1|] eqn:E; [|discriminate].
    rewrite (IH st1 fin) by (auto; intro K; apply N; right; exact K). cbn [map List.concat]. rewrite app_assoc. f_equal.
    destruct s as [|n|n v|v| |lab m o]; try congruence.
    + cbn in E. injection E as <-. rewrite app_nil_r. reflexivity.
    + apply define_some in E. destruct E as [_ ->]. cbn. rewrite app_nil_r. reflexivity.
    + apply define_some in E. destruct E as [_ ->]. cbn. rewrite app_nil_r. reflexivity.
    + cbn in E. injection E as <-. cbn. rewrite app_nil_r. reflexivity.
    + destruct (pass1_stmt_instr _ _ _ _ _ _ E) as (md & op & size & _ & _ & _ & ->). cbn [p1_items]. rewrite map_app. reflexivity.
Qed.
