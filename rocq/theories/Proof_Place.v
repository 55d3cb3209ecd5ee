(** Proof_Place.v -- where the code of a program with ascending origins stands. *)
From Verif Require Import Base Proof_Base Model_Main Spec_Isa Spec_Text Spec_Asm Spec_Diag Spec_Prog Spec_Report Spec_Edit
  Proof_Core Proof_Modes Proof_Diag Proof_Ref Proof_Sim2 Proof_Image Proof_Prog.

(** the items stand one behind the other between [a] and [b] *)
Fixpoint ascend (a : Z) (its : list item) (b : Z) : Prop :=
  match its with
  | [] => a <= b
  | it :: its' => a <= it_addr it /\ ascend (it_addr it + it_size it) its' b
  end.

Lemma ascend_app : forall x y a b c, ascend a x b -> ascend b y c -> ascend a (x ++ y) c.
Proof.
  induction x as [|it x IH]; intros y a b c H K; cbn in *.
  - destruct y as [|jt y]; cbn in *; [lia|]. destruct K. split; [lia|assumption].
  - destruct H. split; [assumption|]. eapply IH; eauto.
Qed.

Lemma stmt_ascend : forall st s st', stmt16 s -> s <> SEnd -> 0 <= p1_addr st ->
  match s with SOrg v => p1_addr st <= v | _ => True end -> pass1_stmt AsBuilt st s = Some st' ->
  0 <= p1_addr st' /\ exists its, p1_items st' = p1_items st ++ its /\ Forall good_item its /\ ascend (p1_addr st) its (p1_addr st').
Proof.
  intros st s st' H N P O E.
  assert (D : forall n v, define st n v = Some st' ->
    0 <= p1_addr st' /\ exists its, p1_items st' = p1_items st ++ its /\ Forall good_item its /\ ascend (p1_addr st) its (p1_addr st')).
  { intros n v F. unfold define in F. destruct (lookup (p1_env st) n); [discriminate|]. injection F as <-. cbn [p1_addr p1_items].
    split; [exact P|]. exists []. rewrite app_nil_r. split; [reflexivity|]. split; [constructor|]. cbn. lia. }
  destruct s as [|l|l v|v| |lab m o].
  - cbn in E. injection E as <-. split; [exact P|]. exists []. rewrite app_nil_r. split; [reflexivity|]. split; [constructor|]. cbn. lia.
  - exact (D _ _ E).
  - exact (D _ _ E).
  - cbn in E. injection E as <-. cbn [p1_addr p1_items]. split; [lia|]. exists []. rewrite app_nil_r. split; [reflexivity|]. split; [constructor|]. cbn. lia.
  - congruence.
  - destruct (pass1_stmt_instr _ _ _ _ _ _ E) as (md & op & size & Dm & Hm & _ & ->). cbn [p1_addr p1_items].
    destruct (has_mode_bytes _ _ _ _ _ _ Hm) as [Es Eo]. assert (0 < size) by (destruct (narrow md), (wide md); lia).
    split; [lia|]. eexists. split; [reflexivity|]. split; [|cbn; lia].
    constructor; [|constructor]. split; [exact P|]. split; [exact Eo|]. split; [exact Es|]. cbn [it_mode it_expr]. split; [split; intro K|].
    + eapply denoted_some_wide; eauto.
    + eapply no_expr_mode; eauto.
    + intros v Ev. destruct H as [_ H]. rewrite Ev in H. cbn in H. lia.
Qed.

Lemma pass1_ascend : forall p st st', Forall stmt16 p -> ~ In SEnd p -> 0 <= p1_addr st -> monotone_from AsBuilt st p ->
  pass1 AsBuilt st p = Some st' ->
  0 <= p1_addr st' /\ exists its, p1_items st' = p1_items st ++ its /\ Forall good_item its /\ ascend (p1_addr st) its (p1_addr st').
Proof.
  induction p as [|s p IH]; intros st st' F N P M E.
  - injection E as <-. split; [exact P|]. exists []. rewrite app_nil_r. split; [reflexivity|]. split; [constructor|]. cbn. lia.
  - inversion F as [|? ? H F']; subst. assert (Ns : s <> SEnd) by (intros ->; apply N; left; reflexivity).
    rewrite pass1_cons in E by exact Ns. destruct (pass1_stmt AsBuilt st s) as [st1|] eqn:E1; [|discriminate].
    assert (M' : match s with SOrg v => p1_addr st <= v | _ => True end /\ monotone_from AsBuilt st1 p)
      by (cbn [monotone_from] in M; rewrite E1 in M; destruct s; (congruence || exact M)).
    destruct M' as [M1 M2]. destruct (stmt_ascend _ _ _ H Ns P M1 E1) as (P1 & i1 & A1 & B1 & C1).
    destruct (IH st1 st' F') as (P2 & i2 & A2 & B2 & C2); auto; [intro K; apply N; right; exact K|].
    split; [exact P2|]. exists (i1 ++ i2). rewrite A2, A1, app_assoc. split; [reflexivity|].
    split; [apply Forall_app; auto|]. eapply ascend_app; eauto.
Qed.

Lemma pass2_extends : forall r e e' its code, extends e e' -> pass2 r e its = Some code -> pass2 r e' its = Some code.
Proof.
  intros r e e'. induction its as [|it its IH]; intros code X H; cbn in *; [exact H|].
  destruct (encode_operand r e it) as [bs|] eqn:E; [|discriminate]. rewrite (encode_extends _ _ _ _ _ X E).
  destruct (pass2 r e its) as [c|]; [|discriminate]. rewrite (IH c X eq_refl). exact H.
Qed.

(** the pieces of ascending items *)
Lemma pass2_pieces : forall e its code a b, Forall good_item its -> ascend a its b -> pass2 AsBuilt e its = Some code -> 0 <= a ->
  image_end code <= Z.max 0 b /\ a <= b /\ forall p bs, In (p, bs) code -> a <= p /\ p + zlen bs <= b.
Proof.
  intros e. induction its as [|it its IH]; intros code a b G A H P; cbn in A, H.
  - injection H as <-. cbn. split; [lia|]. split; [lia|]. intros p bs [].
  - inversion G as [|? ? G1 G2]; subst. destruct A as [A1 A2].
    destruct (encode_operand AsBuilt e it) as [bs0|] eqn:E; [|discriminate].
    destruct (pass2 AsBuilt e its) as [c|] eqn:E2; [|discriminate]. injection H as <-.
    pose proof (encode_length _ _ _ G1 E) as L. pose proof (zlen_pos _ bs0).
    destruct (IH c _ b G2 A2 eq_refl) as (I1 & I2 & I3); [lia|]. split; [|split; [lia|]].
    + cbn [image_end]. change (Z.of_nat (List.length (it_opcode it :: bs0))) with (zlen (it_opcode it :: bs0)). rewrite zlen_cons. lia.
    + intros p bs [K|K]; [injection K as <- <-; rewrite zlen_cons; lia|]. destruct (I3 _ _ K). lia.
Qed.
