(** Prop_Shift.v -- C90: when a part of a program is replaced by one of another length, the code in front of it keeps its
    place, the code behind it moves by the difference, up to the next .ORG, and the operands follow. *)
From Verif Require Import Base Proof_Base Model_Main Spec_Isa Spec_Text Spec_Asm Spec_Diag Spec_Prog Spec_Report Spec_Edit Spec_Shift
  Proof_Core Proof_Modes Proof_Diag Proof_Ref Proof_Sim2 Proof_Image Proof_Kept Proof_Prog Proof_Check Proof_Place Proof_Rewrite Proof_Reloc
  Prop_Program Prop_Edit Prop_Move Prop_Code.

Lemma moving_app : forall a b, ~ In SEnd a -> moving (a ++ b) = if existsb is_org a then moving a else moving a ++ moving b.
Proof.
  induction a as [|s a IH]; intros b N; [reflexivity|].
  assert (N' : ~ In SEnd a) by (intro K; apply N; right; exact K). specialize (IH b N').
  destruct s as [|n|n v|v| |[n|] m o]; cbn [app moving existsb is_org orb]; rewrite ?IH; try reflexivity;
    try (destruct (existsb is_org a); reflexivity). destruct N; left; reflexivity.
Qed.

Lemma moving_in : forall p n, In n (moving p) -> exists s, In s p /\ defines s = Some n /\ forall c v, s <> SConst c v.
Proof.
  induction p as [|s p IH]; intros n H; [destruct H|].
  assert (R : In n (moving p) -> exists s0, In s0 (s :: p) /\ defines s0 = Some n /\ forall c v, s0 <> SConst c v).
  { intro K. destruct (IH n K) as (s0 & A & B & C). exists s0. split; [right; exact A|auto]. }
  destruct s as [|x|x v|v| |[x|] m o]; cbn [moving] in H; auto; try destruct H as [-> |H]; auto; try destruct H;
    (eexists; split; [left; reflexivity|]; split; [reflexivity|]; discriminate).
Qed.

Lemma moving_body : forall p, moving (body p) = moving p.
Proof. induction p as [|s p IH]; [reflexivity|]. destruct s as [|n|n v|v| |[n|] m o]; cbn [body moving]; rewrite ?IH; reflexivity. Qed.

Lemma member : forall n l, existsb (text_eqb n) l = true <-> In n l.
Proof.
  intros n l. rewrite existsb_exists. split.
  - intros (x & I & E). apply text_eqb_eq in E. subst. exact I.
  - intro I. exists n. split; [exact I|apply text_eqb_refl].
Qed.

Lemma shift_in : forall p d n, In n (moving p) -> label_shift p d n = d.
Proof. intros p d n H. apply member in H. unfold label_shift. rewrite H. reflexivity. Qed.

Lemma shift_out : forall p d n, ~ In n (moving p) -> label_shift p d n = 0.
Proof. intros p d n H. unfold label_shift. destruct (existsb _ _) eqn:E; [|reflexivity]. apply member in E. contradiction. Qed.

Lemma denoted_side : forall m o v v', (is_branch_name m = false -> is_jump_name m = false -> (v <= 255 <-> v' <= 255)) ->
  denoted_mode m o (Some v) = denoted_mode m o (Some v').
Proof.
  intros m o v v' H. unfold denoted_mode. destruct (is_branch_name m); [reflexivity|]. destruct (is_jump_name m); [reflexivity|].
  specialize (H eq_refl eq_refl).
  assert (E : (v <=? 255) = (v' <=? 255)) by (destruct (Z.leb_spec v 255), (Z.leb_spec v' 255); try reflexivity; exfalso; tauto || lia).
  assert (F : (255 <? v) = (255 <? v')) by (rewrite !Z.ltb_antisym, E; reflexivity).
  destruct o; unfold by_size; rewrite ?E, ?F; reflexivity.
Qed.

Section Shift.
  Variable q : list stmt.
  Variable d : Z.
  Variable watched : text -> Prop.
  Variable fin : env.
  Hypothesis no_end : ~ In SEnd q.
  Hypothesis once : forall s s' n, In s q -> In s' q -> defines s = Some n -> defines s' = Some n -> s = s'.
  Hypothesis used : forall lab m o n, In (SInstr lab m o) q -> operand_expr o = Some (Lab n) -> watched n.
  Hypothesis side : forall lab m o n v, In (SInstr lab m o) q -> operand_expr o = Some (Lab n) ->
    is_branch_name m = false -> is_jump_name m = false -> In n (moving q) -> lookup fin n = Some v -> (v <= 0xFF <-> v + d <= 0xFF).

  Record beside (done : list stmt) (st st' : pass1_state) : Prop := {
    be_addr : p1_addr st' = p1_addr st + (if existsb is_org done then 0 else d);
    be_env : forall n, watched n -> lookup (p1_env st') n = option_map (fun v => v + label_shift q d n) (lookup (p1_env st) n);
    be_done : forall n, In n (moving done) -> lookup (p1_env st) n <> None }.

  Lemma label_here : forall done rest s n st st', q = done ++ s :: rest -> defines s = Some n -> (forall c v, s <> SConst c v) ->
    beside done st st' -> lookup (p1_env st) n = None -> p1_addr st' = p1_addr st + label_shift q d n.
  Proof.
    intros done rest s n st st' E D C R L. destruct R as [RA _ RD]. rewrite RA. f_equal.
    assert (Nd : ~ In SEnd done) by (intro K; apply no_end; rewrite E; apply in_or_app; left; exact K).
    destruct (existsb is_org done) eqn:O.
    - symmetry. apply shift_out. rewrite E, moving_app, O by exact Nd. intro K. destruct (RD n K). exact L.
    - symmetry. apply shift_in. rewrite E, moving_app, O by exact Nd. apply in_or_app. right.
      destruct s as [|x|x v|v| |[x|] m o]; try discriminate D; cbn [defines] in D; injection D as ->; [left; reflexivity| |left; reflexivity].
      destruct (C n v). reflexivity.
  Qed.

  Lemma env_cons : forall n v v' e e', (forall k, watched k -> lookup e' k = option_map (fun v => v + label_shift q d k) (lookup e k)) ->
    v' = v + label_shift q d n -> forall k, watched k -> lookup ((n, v') :: e') k = option_map (fun v => v + label_shift q d k) (lookup ((n, v) :: e) k).
  Proof.
    intros n v v' e e' H E k W. cbn [lookup]. destruct (text_eqb n k) eqn:K; [|auto]. apply text_eqb_eq in K. subst. reflexivity.
  Qed.

  Lemma more_done : forall done s st st1, ~ In SEnd (done ++ [s]) -> pass1_stmt AsBuilt st s = Some st1 ->
    (forall n, In n (moving done) -> lookup (p1_env st) n <> None) -> forall n, In n (moving (done ++ [s])) -> lookup (p1_env st1) n <> None.
  Proof.
    intros done s st st1 N H R n K.
    assert (Nd : ~ In SEnd done) by (intro J; apply N, in_or_app; left; exact J).
    assert (Ns : s <> SEnd) by (intros ->; apply N, in_or_app; right; left; reflexivity).
    pose proof (pass1_stmt_env _ _ _ _ Ns H) as V. rewrite moving_app in K by exact Nd.
    assert (K' : In n (moving done) \/ defines s = Some n).
    { destruct (existsb is_org done); [left; exact K|]. apply in_app_or in K. destruct K as [K|K]; [left; exact K|right].
      destruct (moving_in _ _ K) as (s0 & [<- |[]] & D & _). exact D. }
    destruct (defines s) as [x|] eqn:D.
    - destruct V as [_ ->]. cbn [lookup]. destruct (text_eqb x n) eqn:E; [discriminate|]. destruct K' as [K'|K']; [auto|].
      injection K' as ->. rewrite text_eqb_refl in E. discriminate.
    - rewrite V. destruct K' as [K'|K']; [auto|discriminate].
  Qed.

  Definition known (v : option Z) : bool := match v with Some _ => true | None => false end.

  Lemma same_mode : forall lab m o e e', In (SInstr lab m o) q ->
    (forall n, watched n -> lookup e' n = option_map (fun v => v + label_shift q d n) (lookup e n)) ->
    (forall n v, lookup e n = Some v -> lookup fin n = Some v) ->
    denoted_mode m o (value_of e' o) = denoted_mode m o (value_of e o) /\ known (value_of e' o) = known (value_of e o).
  Proof.
    intros lab m o e e' Iq RE X. unfold value_of in *. destruct (operand_expr o) as [[w|n]|] eqn:O; cbn [eval] in *; auto.
    rewrite (RE n) by (eapply used; eauto). destruct (lookup _ n) as [v|] eqn:L; cbn [option_map known]; [|auto]. split; [|reflexivity].
    apply denoted_side. intros B J. destruct (in_dec (fun a b : text => ltac:(repeat decide equality)) n (moving q)) as [I|I].
    - rewrite shift_in by exact I. specialize (X n v L). pose proof (side _ _ _ _ _ Iq O B J I X). tauto.
    - rewrite shift_out, Z.add_0_r by exact I. tauto.
  Qed.

  Lemma beside_step : forall done s rest st st' st1 st1', q = done ++ s :: rest -> beside done st st' ->
    pass1_stmt AsBuilt st s = Some st1 -> pass1_stmt AsBuilt st' s = Some st1' -> (forall n v, lookup (p1_env st1) n = Some v -> lookup fin n = Some v) ->
    beside (done ++ [s]) st1 st1'.
  Proof.
    intros done s rest st st' st1 st1' E R H H' X.
    assert (Iq : In s q) by (rewrite E; apply in_or_app; right; left; reflexivity).
    assert (Ns : s <> SEnd) by (intros ->; contradiction).
    assert (N : ~ In SEnd (done ++ [s])).
    { intro K. apply no_end. rewrite E. apply in_app_or in K. apply in_or_app. destruct K as [K|[K|[]]]; [left; exact K|right; left; exact K]. }
    pose proof R as [RA RE RD]. pose proof (more_done _ _ _ _ N H RD) as RD'.
    pose proof (pass1_stmt_env _ _ _ _ Ns H) as V. pose proof (pass1_stmt_env _ _ _ _ Ns H') as V'.
    assert (RE' : forall n, watched n -> lookup (p1_env st1') n = option_map (fun v => v + label_shift q d n) (lookup (p1_env st1) n)).
    { destruct (defines s) as [n|] eqn:D; [|rewrite V, V'; exact RE]. destruct V as [L ->], V' as [_ ->]. apply env_cons; [exact RE|].
      destruct s as [|x|x v|v| |lab m o]; try discriminate D.
      - eapply label_here; eauto. discriminate.
      - cbn [defines] in D. injection D as ->. rewrite shift_out; [lia|]. intro K. destruct (moving_in _ _ K) as (s0 & A & B & C).
        apply (C n v). eapply once; eauto.
      - eapply label_here; eauto. discriminate. }
    constructor; [|exact RE'|exact RD'].
    rewrite existsb_app. cbn [existsb]. destruct s as [|x|x v|v| |lab m o]; cbn [is_org orb].
    - injection H as <-. injection H' as <-. rewrite Bool.orb_false_r. exact RA.
    - apply define_some in H. apply define_some in H'. destruct H as [_ ->], H' as [_ ->]. cbn [p1_addr]. rewrite Bool.orb_false_r. exact RA.
    - apply define_some in H. apply define_some in H'. destruct H as [_ ->], H' as [_ ->]. cbn [p1_addr]. rewrite Bool.orb_false_r. exact RA.
    - injection H as <-. injection H' as <-. cbn [p1_addr]. rewrite Bool.orb_true_r. lia.
    - congruence.
    - rewrite Bool.orb_false_r.
      destruct (pass1_stmt_instr _ _ _ _ _ _ H) as (md & op & size & D & M & _ & ->).
      destruct (pass1_stmt_instr _ _ _ _ _ _ H') as (md' & op' & size' & D' & M' & _ & ->). cbn [p1_addr p1_env] in *.
      enough (size' = size) by lia.
      destruct (same_mode lab m o (with_own lab (p1_addr st) (p1_env st)) (with_own lab (p1_addr st') (p1_env st')) Iq RE' X) as [Q1 Q2].
      rewrite Q1, D in D'. injection D' as <-. unfold known in Q2. rewrite Q2, M in M'. injection M' as <- <-. reflexivity.
  Qed.

  Lemma beside_all : forall rest done st st' f f', q = done ++ rest -> beside done st st' ->
    pass1 AsBuilt st rest = Some f -> pass1 AsBuilt st' rest = Some f' -> (forall n v, lookup (p1_env f) n = Some v -> lookup fin n = Some v) ->
    forall k, exists sk sk', pass1 AsBuilt st (firstn k rest) = Some sk /\ pass1 AsBuilt st' (firstn k rest) = Some sk' /\
      beside (done ++ firstn k rest) sk sk'.
  Proof.
    induction rest as [|s rest IH]; intros done st st' f f' E R H H' X k.
    { rewrite firstn_nil, app_nil_r. exists st, st'. auto. }
    destruct k as [|k]; [cbn [firstn]; rewrite app_nil_r; exists st, st'; auto|]. cbn [firstn].
    assert (Ns : s <> SEnd) by (intros ->; apply no_end; rewrite E; apply in_or_app; right; left; reflexivity).
    rewrite pass1_cons in H, H' by exact Ns. destruct (pass1_stmt AsBuilt st s) as [st1|] eqn:E1; [|discriminate].
    destruct (pass1_stmt AsBuilt st' s) as [st1'|] eqn:E1'; [|discriminate].
    destruct (pass1_extends _ _ _ _ H) as [_ Ex].
    assert (R1 : beside (done ++ [s]) st1 st1') by (eapply beside_step; eauto).
    replace (done ++ s :: rest) with ((done ++ [s]) ++ rest) in E by (rewrite <- app_assoc; reflexivity).
    destruct (IH _ _ _ _ _ E R1 H H' X k) as (sk & sk' & A & B & C). exists sk, sk'.
    rewrite !pass1_cons, E1, E1' by exact Ns. split; [exact A|]. split; [exact B|]. rewrite <- app_assoc in C. exact C.
  Qed.

  (** the other program gets through the first pass as well *)
  Lemma beside_next : forall done s rest st st' st1, (forall s0 n, In s0 q -> defines s0 = Some n -> watched n) -> q = done ++ s :: rest -> beside done st st' ->
    pass1_stmt AsBuilt st s = Some st1 -> (forall n v, lookup (p1_env st1) n = Some v -> lookup fin n = Some v) ->
    exists st1', pass1_stmt AsBuilt st' s = Some st1'.
  Proof.
    intros done s rest st st' st1 named E R H X.
    assert (Iq : In s q) by (rewrite E; apply in_or_app; right; left; reflexivity).
    assert (Ns : s <> SEnd) by (intros ->; contradiction).
    pose proof R as [RA RE RD].
    assert (Fr : forall x, defines s = Some x -> lookup (p1_env st) x = None -> lookup (p1_env st') x = None).
    { intros x D L. rewrite (RE x (named s x Iq D)), L. reflexivity. }
    destruct s as [|x|x v|v| |lab m o].
    - eexists. reflexivity.
    - cbn [pass1_stmt] in *. apply define_some in H. destruct H as [L _]. unfold define. rewrite (Fr x eq_refl L). eexists. reflexivity.
    - cbn [pass1_stmt] in *. apply define_some in H. destruct H as [L _]. unfold define. rewrite (Fr x eq_refl L). eexists. reflexivity.
    - eexists. reflexivity.
    - congruence.
    - destruct (pass1_stmt_instr _ _ _ _ _ _ H) as (md & op & size & D & M & L & ->). cbn [p1_addr p1_env] in *.
      assert (RE' : forall n, watched n -> lookup (with_own lab (p1_addr st') (p1_env st')) n = option_map (fun v => v + label_shift q d n) (lookup (with_own lab (p1_addr st) (p1_env st)) n)).
      { destruct lab as [x|]; [|exact RE]. cbn [with_own]. apply env_cons; [exact RE|]. eapply label_here; eauto; discriminate. }
      destruct (same_mode lab m o _ _ Iq RE' X) as [Q1 Q2]. unfold known in Q2.
      assert (P : forall e i, e = with_own lab (p1_addr st') (p1_env st') -> exists f', pass1_instr AsBuilt (mkP1 (p1_addr st') e i) m o = Some f').
      { intros e i ->. unfold pass1_instr. cbn [p1_addr p1_env p1_items]. fold (value_of (with_own lab (p1_addr st') (p1_env st')) o). rewrite Q1, D, Q2, M. eexists. reflexivity. }
      destruct lab as [x|]; cbn [pass1_stmt].
      + unfold define. rewrite (Fr x eq_refl L). apply P. reflexivity.
      + destruct st' as [a' e' i']. apply P. reflexivity.
  Qed.

  Lemma pass1_next : forall rest done st st' f, (forall s0 n, In s0 q -> defines s0 = Some n -> watched n) -> q = done ++ rest -> beside done st st' ->
    pass1 AsBuilt st rest = Some f -> (forall n v, lookup (p1_env f) n = Some v -> lookup fin n = Some v) ->
    exists f', pass1 AsBuilt st' rest = Some f'.
  Proof.
    induction rest as [|s rest IH]; intros done st st' f named E R H X; [eexists; reflexivity|].
    assert (Ns : s <> SEnd) by (intros ->; apply no_end; rewrite E; apply in_or_app; right; left; reflexivity).
    rewrite pass1_cons in * by exact Ns. destruct (pass1_stmt AsBuilt st s) as [st1|] eqn:E1; [|discriminate].
    destruct (pass1_extends _ _ _ _ H) as [_ Ex].
    assert (X1 : forall n v, lookup (p1_env st1) n = Some v -> lookup fin n = Some v) by (intros n v L; apply X, Ex, L).
    destruct (beside_next _ _ _ _ _ _ named E R E1 X1) as (st1' & E1'). rewrite E1'.
    assert (R1 : beside (done ++ [s]) st1 st1') by (eapply beside_step; eauto).
    replace (done ++ s :: rest) with ((done ++ [s]) ++ rest) in E by (rewrite <- app_assoc; reflexivity).
    exact (IH _ _ _ _ named E R1 H X).
  Qed.
End Shift.

(** ** The bytes of an instruction *)
Lemma encode_moved : forall e e' a s m md opc size x t bs bs',
  (forall n, x = Some (Lab n) -> lookup e' n = option_map (fun v => v + t) (lookup e n)) -> (forall v, x = Some (Num v) -> 0 <= v) ->
  encode_operand AsBuilt e (mkItem a m md opc size x) = Some bs -> encode_operand AsBuilt e' (mkItem (a + s) m md opc size x) = Some bs' ->
  operand_moved (match x with Some (Lab _) => t - (match md with REL => s | _ => 0 end) | _ => 0 end) bs bs'.
Proof.
  intros e e' a s m md opc size x t bs bs' L P H H'. unfold encode_operand in *. cbn [it_expr it_mode it_addr] in *.
  assert (Two : forall v k, operand_moved k [lo v; hi v] [lo (v + k); hi (v + k)]).
  { intros v k. unfold operand_moved, lo, hi. cbn [List.length little]. split; [reflexivity|].
    do 2 (split; [repeat constructor; apply Z.mod_pos_bound; lia|]). change (256 ^ Z.of_nat 2) with (256 * 256).
    assert (W : forall u, u mod 256 + 256 * ((u / 256) mod 256 + 256 * 0) = u mod (256 * 256)) by (intro u; Z.div_mod_to_equations; nia).
    rewrite !W, Zplus_mod_idemp_l. reflexivity. }
  assert (One : forall v k, operand_moved k [lo v] [lo (v + k)]).
  { intros v k. unfold operand_moved, lo. cbn [List.length little]. split; [reflexivity|].
    do 2 (split; [repeat constructor; apply Z.mod_pos_bound; lia|]). change (256 ^ Z.of_nat 1) with 256.
    rewrite Z.mul_0_r, !Z.add_0_r, Zplus_mod_idemp_l. reflexivity. }
  destruct x as [[w|n]|].
  - cbn [eval] in *. specialize (P w eq_refl).
    assert (T2 : operand_moved 0 [lo w; hi w] [lo w; hi w]) by (specialize (Two w 0); rewrite Z.add_0_r in Two; exact Two).
    assert (T1 : operand_moved 0 [lo w] [lo w]) by (specialize (One w 0); rewrite Z.add_0_r in One; exact One).
    destruct md; try (injection H as <-; injection H' as <-; assumption).
    destruct (Z.leb_spec w 255); injection H as <-; injection H' as <-; [|assumption].
    unfold lo in T1. rewrite Z.mod_small in T1 by lia. exact T1.
  - cbn [eval] in *. rewrite (L n eq_refl) in H'. destruct (lookup e n) as [v|]; [|discriminate]. cbn [option_map] in H'.
    destruct md; try (injection H as <-; injection H' as <-; rewrite Z.sub_0_r; auto; fail).
    cbn zeta in *. destruct ((-128 <=? v - (a + 2)) && _); [|discriminate]. destruct (_ && _) in H'; [|discriminate].
    injection H as <-. injection H' as <-. specialize (One (v - (a + 2)) (t - s)). unfold lo in One.
    replace (v + t - (a + s + 2)) with (v - (a + 2) + (t - s)) by lia. exact One.
  - injection H as <-. injection H' as <-. repeat split; constructor.
Qed.

Lemma twins : forall file src src' p p' o o' i i' s t lab m op fin fin', program_means src p -> program_means src' p' -> small src -> small src' ->
  gaia file src = Ret o -> exit_code o = 0 -> gaia file src' = Ret o' -> exit_code o' = 0 ->
  nth_error (body p) i = Some (SInstr lab m op) -> nth_error (body p') i' = Some (SInstr lab m op) ->
  labels AsBuilt p = Some fin -> labels AsBuilt p' = Some fin' ->
  (forall n, operand_expr op = Some (Lab n) -> lookup fin' n = option_map (fun v => v + t) (lookup fin n)) ->
  (forall a e a' e', address AsBuilt p i = Some a -> labels_at AsBuilt p i = Some e -> address AsBuilt p' i' = Some a' -> labels_at AsBuilt p' i' = Some e' ->
     a' = a + s /\ denoted_mode m op (value_of (with_own lab a' e') op) = denoted_mode m op (value_of (with_own lab a e) op) /\
     known (value_of (with_own lab a' e') op) = known (value_of (with_own lab a e) op)) ->
  twin p p' (binary o) (binary o') i i' s (match operand_expr op with Some (Lab n) => t - (if is_branch_name m then s else 0) | _ => 0 end).
Proof.
  intros file src src' p p' o o' i i' s t lab m op fin fin' M M' B B' G X G' X' K K' F F' L R.
  destruct (assembled _ _ _ _ M B G X) as (st & code & _ & Rf & _). destruct (assembled _ _ _ _ M' B' G' X') as (st' & code' & _ & Rf' & _).
  destruct (instr_piece _ _ _ _ _ _ _ Rf K) as (a & e & g & md & opc & size & bs & E1 & E2 & E3 & _ & D & H & En & N).
  destruct (instr_piece _ _ _ _ _ _ _ Rf' K') as (a' & e' & g' & md' & opc' & size' & bs' & E1' & E2' & E3' & _ & D' & H' & En' & N').
  rewrite F in E3. injection E3 as <-. rewrite F' in E3'. injection E3' as <-.
  destruct (R _ _ _ _ E1 E2 E1' E2') as (-> & Q1 & Q2). rewrite Q1, D in D'. injection D' as <-. unfold known in Q2. rewrite Q2, H in H'. injection H' as <- <-.
  assert (P16 : forall v, operand_expr op = Some (Num v) -> 0 <= v).
  { intros v Ev. pose proof (program_16 _ _ M) as S16. rewrite Forall_forall in S16.
    assert (I : In (SInstr lab m op) p).
    { apply nth_error_In in K. clear - K. induction p as [|x p IH]; [destruct K|].
      destruct x; cbn [body] in K; try destruct K as [<- |K]; try (left; reflexivity); try (right; apply IH; exact K). destruct K. }
    specialize (S16 _ I). cbn in S16. rewrite Ev in S16. cbn in S16. lia. }
  pose proof (encode_moved _ _ _ _ _ _ _ _ _ _ _ _ L P16 En En') as OM.
  exists code, code', a, opc, bs, bs'. do 2 (split; [assumption|]). do 2 (split; [assumption|]). do 2 (split; [assumption|]). split; [|split].
  - destruct (operand_expr op) as [[w|n]|]; try exact OM. destruct (is_branch_name m) eqn:Br.
    + destruct (denoted_branch _ _ _ _ Br D) as [-> _]. exact OM.
    + destruct md; try exact OM. destruct (denoted_rel _ _ _ D). congruence.
  - intro Mo. destruct (C27_ascending_partial _ _ _ _ _ _ _ _ M B G X Mo K) as (c & x & ys & A1 & A2 & A3 & A4).
    rewrite Rf in A1. injection A1 as <-. unfold instr_number in A3. rewrite N in A3. injection A3 as <- <-. exact A4.
  - intro Mo. destruct (C27_ascending_partial _ _ _ _ _ _ _ _ M' B' G' X' Mo K') as (c & x & ys & A1 & A2 & A3 & A4).
    rewrite Rf' in A1. injection A1 as <-. unfold instr_number in A3. rewrite N' in A3. injection A3 as <- <-. exact A4.
Qed.

Lemma prefix_at : forall pre x k, ~ In SEnd pre -> firstn (List.length pre + k) (body (pre ++ x)) = pre ++ firstn k (body x).
Proof. intros pre x k N. rewrite body_app, firstn_app_2 by exact N. reflexivity. Qed.

Theorem C90_shift : forall file src src' pre mid mid' post b b' e e' fin o o',
  program_means src (pre ++ mid ++ post) -> program_means src' (pre ++ mid' ++ post) -> small src -> small src' ->
  ~ In SEnd pre -> ~ In SEnd mid -> ~ In SEnd mid' ->
  address AsBuilt (pre ++ mid) (List.length (pre ++ mid)) = Some b -> address AsBuilt (pre ++ mid') (List.length (pre ++ mid')) = Some b' ->
  labels AsBuilt (pre ++ mid) = Some e -> labels AsBuilt (pre ++ mid') = Some e' ->
  (forall n, uses pre n \/ uses post n -> lookup e' n = lookup e n) ->
  labels AsBuilt (pre ++ mid ++ post) = Some fin -> keeps_size post fin (b' - b) ->
  gaia file src = Ret o -> exit_code o = 0 -> gaia file src' = Ret o' -> exit_code o' = 0 ->
  (forall k, (k <= List.length pre)%nat -> address AsBuilt (pre ++ mid' ++ post) k = address AsBuilt (pre ++ mid ++ post) k) /\
  (forall k, exists a, address AsBuilt (pre ++ mid ++ post) (List.length (pre ++ mid) + k) = Some a /\
     address AsBuilt (pre ++ mid' ++ post) (List.length (pre ++ mid') + k) = Some (a + place_shift post (b' - b) k)) /\
  (exists fin', labels AsBuilt (pre ++ mid' ++ post) = Some fin' /\
     forall n, seen_outside pre post n -> lookup fin' n = option_map (fun v => v + label_shift post (b' - b) n) (lookup fin n)) /\
  (forall k lab m op, nth_error pre k = Some (SInstr lab m op) ->
     twin (pre ++ mid ++ post) (pre ++ mid' ++ post) (binary o) (binary o') k k 0 (operand_shift post (b' - b) 0 m op)) /\
  (forall k lab m op, nth_error (body post) k = Some (SInstr lab m op) ->
     twin (pre ++ mid ++ post) (pre ++ mid' ++ post) (binary o) (binary o') (List.length (pre ++ mid) + k) (List.length (pre ++ mid') + k)
       (place_shift post (b' - b) k) (operand_shift post (b' - b) (place_shift post (b' - b) k) m op)).
Proof.
  intros file src src' pre mid mid' post b b' e e' fin o o' M M' B B' N0 N1 N2 Hb Hb' He He' Ee Hf KS G X G' X'.
  assert (N01 : ~ In SEnd (pre ++ mid)) by (intro K; apply in_app_or in K; tauto).
  assert (N02 : ~ In SEnd (pre ++ mid')) by (intro K; apply in_app_or in K; tauto).
  unfold address in Hb, Hb'. rewrite body_id, firstn_all in Hb by exact N01. rewrite body_id, firstn_all in Hb' by exact N02.
  unfold labels in He, He'. destruct (pass1_program AsBuilt (pre ++ mid)) as [f1|] eqn:E1; [|discriminate]. injection Hb as Hb. injection He as He.
  destruct (pass1_program AsBuilt (pre ++ mid')) as [f2|] eqn:E2; [|discriminate]. injection Hb' as Hb'. injection He' as He'. subst e e'.
  destruct (success file src _ o M B G X) as (f & c & U & V & _ & _). destruct (success file src' _ o' M' B' G' X') as (f' & c' & U' & V' & _ & _).
  assert (F : p1_env f = fin) by (unfold labels in Hf; rewrite U in Hf; injection Hf as <-; reflexivity).
  pose proof U as W. pose proof U' as W'. unfold pass1_program in W, W'. rewrite app_assoc, pass1_app in W by exact N01. rewrite app_assoc, pass1_app in W' by exact N02.
  unfold pass1_program in E1, E2. rewrite E1 in W. rewrite E2 in W'. rewrite pass1_body in W, W'.
  set (q := body post) in *. set (d := b' - b) in *.
  assert (Nq : ~ In SEnd q) by apply body_no_end.
  assert (Mq : moving q = moving post) by apply moving_body.
  assert (LS : forall n, label_shift q d n = label_shift post d n) by (intro n; unfold label_shift; rewrite Mq; reflexivity).
  assert (Once : forall s s' n, In s q -> In s' q -> defines s = Some n -> defines s' = Some n -> s = s') by (eapply defined_once; eauto).
  set (watched := seen_outside pre post).
  assert (Used : forall lab m o n, In (SInstr lab m o) q -> operand_expr o = Some (Lab n) -> watched n).
  { intros lab m op n I O. right. left. exists lab, m, op. auto. }
  assert (Side : forall lab m o n v, In (SInstr lab m o) q -> operand_expr o = Some (Lab n) ->
    is_branch_name m = false -> is_jump_name m = false -> In n (moving q) -> lookup fin n = Some v -> (v <= 0xFF <-> v + d <= 0xFF)).
  { intros lab m op n v I O Br J K. rewrite Mq in K. eapply KS; eauto. }
  assert (New : forall s n, In s q -> defines s = Some n -> lookup (p1_env f1) n = None /\ lookup (p1_env f2) n = None).
  { intros s n I D. split.
    - destruct (lookup (p1_env f1) n) eqn:L; [|reflexivity]. destruct (pass1_no_redefine _ _ _ _ _ _ Nq W L s I D).
    - destruct (lookup (p1_env f2) n) eqn:L; [|reflexivity]. destruct (pass1_no_redefine _ _ _ _ _ _ Nq W' L s I D). }
  assert (R0 : beside q d watched [] f1 f2).
  { constructor; cbn [existsb moving].
    - unfold d. lia.
    - intros n Wn. destruct Wn as [Wn|[Wn|(s & I & D)]].
      3:{ destruct (New _ _ I D) as [-> ->]. reflexivity. }
      all: rewrite Ee by auto; destruct (in_dec (fun a b : text => ltac:(repeat decide equality)) n (moving q)) as [I|I];
        [destruct (moving_in _ _ I) as (s & J & D & _); destruct (New _ _ J D) as [-> _]; reflexivity|];
        rewrite shift_out by exact I; destruct (lookup (p1_env f1) n); cbn [option_map]; [rewrite Z.add_0_r|]; reflexivity.
    - intros n []. }
  pose proof (beside_all q d watched fin Nq Once Used Side q [] f1 f2 f f' eq_refl R0 W W') as All. cbn [app] in All.
  assert (Ext : forall n v, lookup (p1_env f) n = Some v -> lookup fin n = Some v) by (intros n v; rewrite F; auto). specialize (All Ext).
  assert (St : forall k, pass1_program AsBuilt (firstn (List.length (pre ++ mid) + k) (body (pre ++ mid ++ post))) = pass1 AsBuilt f1 (firstn k q)).
  { intro k. rewrite app_assoc, prefix_at by exact N01. unfold pass1_program. rewrite pass1_app, E1 by exact N01. reflexivity. }
  assert (St' : forall k, pass1_program AsBuilt (firstn (List.length (pre ++ mid') + k) (body (pre ++ mid' ++ post))) = pass1 AsBuilt f2 (firstn k q)).
  { intro k. rewrite app_assoc, prefix_at by exact N02. unfold pass1_program. rewrite pass1_app, E2 by exact N02. reflexivity. }
  assert (Front : forall k x, (k <= List.length pre)%nat -> firstn k (body (pre ++ x)) = firstn k pre).
  { intros k x Hk. rewrite body_app by exact N0. rewrite firstn_app. replace (k - List.length pre)%nat with 0%nat by lia. cbn [firstn]. apply app_nil_r. }
  assert (Fin : forall n, watched n -> lookup (p1_env f') n = option_map (fun v => v + label_shift post d n) (lookup fin n)).
  { intros n Wn. destruct (All (List.length q)) as (sk & sk' & A1 & A2 & A3). rewrite firstn_all in *. rewrite W in A1. injection A1 as <-.
    rewrite W' in A2. injection A2 as <-. rewrite (be_env _ _ _ _ _ _ A3 n Wn), F, LS. reflexivity. }
  assert (Hf' : labels AsBuilt (pre ++ mid' ++ post) = Some (p1_env f')) by (unfold labels; rewrite U'; reflexivity).
  split; [|split; [|split; [|split]]].
  - intros k Hk. unfold address. rewrite !Front by exact Hk. reflexivity.
  - intro k. destruct (All k) as (sk & sk' & A1 & A2 & A3). exists (p1_addr sk). unfold address. rewrite St, St', A1, A2. cbn [option_map].
    split; [reflexivity|]. rewrite (be_addr _ _ _ _ _ _ A3). reflexivity.
  - exists (p1_env f'). split; [exact Hf'|exact Fin].
  - intros k lab m op K. assert (Hk : (k < List.length pre)%nat) by (apply nth_error_Some; congruence).
    assert (Kp : forall x, nth_error (body (pre ++ x)) k = Some (SInstr lab m op)) by (intro x; rewrite body_app, nth_error_app1 by assumption; exact K).
    pose (t := match operand_expr op with Some (Lab n) => label_shift post d n | _ => 0 end).
    replace (operand_shift post d 0 m op) with (match operand_expr op with Some (Lab n) => t - (if is_branch_name m then 0 else 0) | _ => 0 end)
      by (unfold operand_shift, t; destruct (operand_expr op) as [[w|n]|]; reflexivity).
    apply (twins file src src' _ _ o o' k k 0 t lab m op fin (p1_env f') M M' B B' G X G' X' (Kp _) (Kp _) Hf Hf').
    + intros n O. rewrite Fin; [unfold t; rewrite O; reflexivity|]. left. exists lab, m, op. rewrite body_id by exact N0. split; [|exact O].
      apply nth_error_In in K. exact K.
    + intros a1 e1 a2 e2 A1 A2 A3 A4. unfold address, labels_at in *. rewrite Front in * by lia. rewrite A1 in A3. rewrite A2 in A4. injection A3 as <-. injection A4 as <-.
      split; [lia|auto].
  - intros k lab m op K.
    assert (Kp : nth_error (body (pre ++ mid ++ post)) (List.length (pre ++ mid) + k) = Some (SInstr lab m op)).
    { rewrite app_assoc, body_app by exact N01. rewrite nth_error_app2 by lia. replace (_ + k - _)%nat with k by lia. exact K. }
    assert (Kp' : nth_error (body (pre ++ mid' ++ post)) (List.length (pre ++ mid') + k) = Some (SInstr lab m op)).
    { rewrite app_assoc, body_app by exact N02. rewrite nth_error_app2 by lia. replace (_ + k - _)%nat with k by lia. exact K. }
    pose (t := match operand_expr op with Some (Lab n) => label_shift post d n | _ => 0 end). set (s := place_shift post d k).
    replace (operand_shift post d s m op) with (match operand_expr op with Some (Lab n) => t - (if is_branch_name m then s else 0) | _ => 0 end)
      by (unfold operand_shift, t; destruct (operand_expr op) as [[w|n]|]; reflexivity).
    assert (Iq : In (SInstr lab m op) q) by (apply nth_error_In in K; exact K).
    apply (twins file src src' _ _ o o' _ _ s t lab m op fin (p1_env f') M M' B B' G X G' X' Kp Kp' Hf Hf').
    + intros n O. rewrite Fin; [unfold t; rewrite O; reflexivity|]. eapply Used; eauto.
    + intros a1 e1 a2 e2 A1 A2 A3 A4. unfold address, labels_at in *. rewrite St in *. rewrite St' in *.
      destruct (All k) as (sk & sk' & B1 & B2 & B3). destruct (All (S k)) as (tk & tk' & C1 & C2 & C3). rewrite B1 in *. rewrite B2 in *. cbn [option_map] in *.
      injection A1 as <-. injection A2 as <-. injection A3 as <-. injection A4 as <-. split; [exact (be_addr _ _ _ _ _ _ B3)|].
      assert (Sp : firstn (S k) q = firstn k q ++ [SInstr lab m op]).
      { clear - K. fold q in K. revert K. generalize q. intro l. revert k. induction l as [|y l IH]; intros [|k] K; try discriminate; cbn [nth_error] in K.
        - injection K as ->. reflexivity.
        - change (y :: firstn (S k) l = y :: (firstn k l ++ [SInstr lab m op])). f_equal. exact (IH k K). }
      assert (Nk : ~ In SEnd (firstn k q)).
      { intro J. apply Nq. rewrite <- (firstn_skipn k q). apply in_or_app. left. exact J. }
      assert (E1k : pass1_stmt AsBuilt sk (SInstr lab m op) = Some tk).
      { rewrite Sp, pass1_app, B1, pass1_cons in C1 by (exact Nk || discriminate). destruct (pass1_stmt AsBuilt sk _); [exact C1|discriminate]. }
      assert (E2k : pass1_stmt AsBuilt sk' (SInstr lab m op) = Some tk').
      { rewrite Sp, pass1_app, B2, pass1_cons in C2 by (exact Nk || discriminate). destruct (pass1_stmt AsBuilt sk' _); [exact C2|discriminate]. }
      destruct (pass1_stmt_instr _ _ _ _ _ _ E1k) as (md & opc & size & _ & _ & _ & Tk). destruct (pass1_stmt_instr _ _ _ _ _ _ E2k) as (md' & opc' & size' & _ & _ & _ & Tk').
      apply (same_mode q d watched fin Used Side lab m op _ _ Iq).
      * pose proof (be_env _ _ _ _ _ _ C3) as Q. rewrite Tk, Tk' in Q. exact Q.
      * intros n v L. rewrite <- F. assert (Ft : pass1 AsBuilt tk (skipn (S k) q) = Some f).
        { pose proof W as W2. rewrite <- (firstn_skipn (S k) q), pass1_app, C1 in W2; [exact W2|].
          intro J. apply Nq. rewrite <- (firstn_skipn (S k) q). apply in_or_app. left. exact J. }
        destruct (pass1_extends _ _ _ _ Ft) as [_ Ex]. apply Ex. rewrite Tk. exact L.
Qed.

(** one instruction is replaced by two: jmp L, beq L, lda L and lda M in front of and behind the part *)
Example C90_case : exists file src src' pre mid mid' post e e' fin o o',
  program_means src (pre ++ mid ++ post) /\ program_means src' (pre ++ mid' ++ post) /\ small src /\ small src' /\
  ~ In SEnd pre /\ ~ In SEnd mid /\ ~ In SEnd mid' /\
  address AsBuilt (pre ++ mid) (List.length (pre ++ mid)) = Some 4 /\ address AsBuilt (pre ++ mid') (List.length (pre ++ mid')) = Some 6 /\
  labels AsBuilt (pre ++ mid) = Some e /\ labels AsBuilt (pre ++ mid') = Some e' /\
  (forall n, uses pre n \/ uses post n -> lookup e' n = lookup e n) /\ e' <> e /\
  labels AsBuilt (pre ++ mid ++ post) = Some fin /\ keeps_size post fin 2 /\
  gaia file src = Ret o /\ exit_code o = 0 /\ gaia file src' = Ret o' /\ exit_code o' = 0 /\
  binary o = [76; 4; 0; 234; 96; 240; 253; 165; 4; 0; 0; 0; 76; 4; 0; 165; 12] /\
  binary o' = [76; 6; 0; 169; 1; 72; 96; 240; 253; 165; 6; 0; 76; 6; 0; 165; 12].
Proof.
  set (l0 := [T " jmp L"]). set (l1 := [T " nop"]). set (l2 := [T "NEW lda #1"; T " pha"]).
  set (l3 := [T "L rts"; T " beq L"; T " lda L"; T ".org 12"; T "M jmp L"; T " lda M"]).
  destruct (statements l0) as [pre|] eqn:E0; [|vm_compute in E0; discriminate].
  destruct (statements l1) as [mid|] eqn:E1; [|vm_compute in E1; discriminate].
  destruct (statements l2) as [mid'|] eqn:E2; [|vm_compute in E2; discriminate].
  destruct (statements l3) as [post|] eqn:E3; [|vm_compute in E3; discriminate].
  exists (T "a.asm"), (join (l0 ++ l1 ++ l3)), (join (l0 ++ l2 ++ l3)), pre, mid, mid', post, [], [(T "NEW", 3)], [(T "M", 12); (T "L", 4)].
  vm_compute in E0, E1, E2, E3. injection E0 as <-. injection E1 as <-. injection E2 as <-. injection E3 as <-.
  do 2 eexists. do 2 (split; [apply means_lines; vm_compute; reflexivity|]). do 2 (split; [vm_compute; reflexivity|]).
  do 3 (split; [intro K; repeat destruct K as [K|K]; (discriminate || exact K)|]).
  do 4 (split; [vm_compute; reflexivity|]).
  split. { intros n [(lab & m & op & I & O)|(lab & m & op & I & O)]; cbn in I; repeat destruct I as [I|I]; try discriminate I; try contradiction;
    injection I as <- <- <-; try discriminate O; injection O as <-; reflexivity. }
  split; [discriminate|]. split; [vm_compute; reflexivity|].
  split. { intros lab m op n v I O B J Mv L. cbn in Mv. destruct Mv as [<- |[]]. vm_compute in L. injection L as <-. lia. }
  do 5 (split; [vm_compute; reflexivity|]). reflexivity.
Qed.

(** without the condition on the sizes the code behind the part changes: lda L at 255 is two bytes long, at 256 three *)
Example C90_crossing : exists file src src' pre mid mid' post fin o o',
  program_means src (pre ++ mid ++ post) /\ program_means src' (pre ++ mid' ++ post) /\
  labels AsBuilt (pre ++ mid ++ post) = Some fin /\ ~ keeps_size post fin 1 /\
  gaia file src = Ret o /\ exit_code o = 0 /\ gaia file src' = Ret o' /\ exit_code o' = 0 /\
  skipn 254 (binary o) = [234; 165; 255] /\ skipn 254 (binary o') = [234; 234; 173; 0; 1].
Proof.
  set (l0 := [T ".org 254"]). set (l1 := [T " nop"]). set (l2 := [T " nop"; T " nop"]). set (l3 := [T "L lda L"]).
  destruct (statements l0) as [pre|] eqn:E0; [|vm_compute in E0; discriminate].
  destruct (statements l1) as [mid|] eqn:E1; [|vm_compute in E1; discriminate].
  destruct (statements l2) as [mid'|] eqn:E2; [|vm_compute in E2; discriminate].
  destruct (statements l3) as [post|] eqn:E3; [|vm_compute in E3; discriminate].
  exists (T "a.asm"), (join (l0 ++ l1 ++ l3)), (join (l0 ++ l2 ++ l3)), pre, mid, mid', post, [(T "L", 255)].
  vm_compute in E0, E1, E2, E3. injection E0 as <-. injection E1 as <-. injection E2 as <-. injection E3 as <-.
  do 2 eexists. do 2 (split; [apply means_lines; vm_compute; reflexivity|]). split; [vm_compute; reflexivity|].
  split. { intro K. specialize (K (Some (T "L")) "LDA"%string (ODir (Lab (T "L"))) (T "L") 255).
    assert (255 <= 255 <-> 255 + 1 <= 255) by (apply K; try reflexivity; vm_compute; auto). lia. }
  do 5 (split; [vm_compute; reflexivity|]). vm_compute; reflexivity.
Qed.
