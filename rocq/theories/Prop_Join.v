(** Prop_Join.v -- C81: two programs without a common label can be assembled separately. *)
From Verif Require Import Base Proof_Base Model_Main Spec_Isa Spec_Text Spec_Asm Spec_Diag Spec_Prog Spec_Report Spec_Edit Spec_Join
  Proof_Core Proof_Modes Proof_Diag Proof_Ref Proof_Sim2 Proof_Image Proof_Kept Proof_Prog Proof_Check Proof_Place Proof_Rewrite Proof_Reloc
  Prop_Program Prop_Edit Prop_Move.

Lemma stmt_end : forall s, s = SEnd \/ s <> SEnd.
Proof. intro s. destruct s; auto; right; discriminate. Qed.

Section Sim.
Variables (Q : text -> Prop) (its0 : list item).

Record jn (st st' : pass1_state) : Prop := {
  j_addr : p1_addr st' = p1_addr st;
  j_env : forall n, Q n -> lookup (p1_env st') n = lookup (p1_env st) n;
  j_items : p1_items st' = its0 ++ p1_items st;
  j_own : Forall (fun it => forall n, it_expr it = Some (Lab n) -> Q n) (p1_items st) }.

Definition jopt (x y : option pass1_state) : Prop :=
  match x, y with Some a, Some b => jn a b | None, None => True | _, _ => False end.

Lemma jn_define : forall st st' n v, jn st st' -> Q n -> jopt (define st n v) (define st' n v).
Proof.
  intros st st' n v [A E I O] Hn. unfold define. rewrite (E n Hn). destruct (lookup (p1_env st) n); [exact Logic.I|].
  cbn [jopt]. constructor; cbn [p1_addr p1_env p1_items]; auto.
  intros k Hk. cbn [lookup]. rewrite (E k Hk). reflexivity.
Qed.

Lemma jn_instr : forall st st' m o, jn st st' -> (forall n, operand_expr o = Some (Lab n) -> Q n) ->
  jopt (pass1_instr AsBuilt st m o) (pass1_instr AsBuilt st' m o).
Proof.
  intros st st' m o [A E I O] Ho. unfold pass1_instr.
  assert (V : match operand_expr o with Some x => eval (p1_env st') x | None => None end =
              match operand_expr o with Some x => eval (p1_env st) x | None => None end).
  { destruct (operand_expr o) as [[v|n]|]; cbn [eval]; auto. }
  rewrite V. cbv zeta. destruct (denoted_mode m o _) as [md|]; [|exact Logic.I].
  destruct (has_mode AsBuilt m md _) as [[op size]|]; [|exact Logic.I]. cbn [jopt]. rewrite A.
  constructor; cbn [p1_addr p1_env p1_items]; auto.
  - rewrite I, app_assoc. reflexivity.
  - apply Forall_app. split; [exact O|]. constructor; [|constructor]. cbn [it_expr]. exact Ho.
Qed.

Lemma jn_stmt : forall s st st', jn st st' -> (forall n, mentions s n -> Q n) ->
  jopt (pass1_stmt AsBuilt st s) (pass1_stmt AsBuilt st' s).
Proof.
  intros s st st' J H. destruct s as [|n|n v|v| |lab m o]; cbn [pass1_stmt].
  - exact J.
  - rewrite (j_addr _ _ J). apply jn_define; auto. apply H. left. reflexivity.
  - apply jn_define; auto. apply H. left. reflexivity.
  - destruct J as [A E I O]. cbn [jopt]. constructor; auto.
  - exact J.
  - assert (Ho : forall n, operand_expr o = Some (Lab n) -> Q n) by (intros n Hn; apply H; right; eauto).
    destruct lab as [n|]; [|apply jn_instr; auto].
    rewrite (j_addr _ _ J). pose proof (jn_define st st' n (p1_addr st) J (H n (or_introl eq_refl))) as D.
    destruct (define st n _), (define st' n _); cbn [jopt] in D; try contradiction; [apply jn_instr; auto|exact Logic.I].
Qed.

Lemma jn_pass1 : forall p st st', jn st st' -> (forall s n, In s p -> mentions s n -> Q n) ->
  jopt (pass1 AsBuilt st p) (pass1 AsBuilt st' p).
Proof.
  induction p as [|s p IH]; intros st st' J H; [exact J|].
  destruct (stmt_end s) as [-> | Ns]; [exact J|]. rewrite !pass1_cons by exact Ns.
  pose proof (jn_stmt s st st' J (fun n => H s n (or_introl eq_refl))) as S.
  destruct (pass1_stmt AsBuilt st s), (pass1_stmt AsBuilt st' s); cbn [jopt] in S; try contradiction; [|exact Logic.I].
  apply IH; auto. intros t n I. apply H. right. exact I.
Qed.

Lemma jn_monotone : forall p st st', jn st st' -> (forall s n, In s p -> mentions s n -> Q n) ->
  monotone_from AsBuilt st' p -> monotone_from AsBuilt st p.
Proof.
  induction p as [|s p IH]; intros st st' J H M; [exact Logic.I|].
  pose proof (jn_stmt s st st' J (fun n => H s n (or_introl eq_refl))) as S.
  cbn [monotone_from] in *. destruct s; try exact Logic.I; try rewrite (j_addr _ _ J) in M; destruct M as [M1 M2]; (split; [exact M1|]);
    match goal with |- match ?x with _ => _ end => destruct x; [|exact Logic.I] end;
    match type of M2 with match ?x with _ => _ end => destruct x; cbn [jopt] in S; [|contradiction] end;
    (eapply IH; [exact S|intros t n I; apply H; right; exact I|exact M2]).
Qed.

Lemma jn_pass2 : forall e e' its, (forall n, Q n -> lookup e' n = lookup e n) ->
  Forall (fun it => forall n, it_expr it = Some (Lab n) -> Q n) its -> pass2 AsBuilt e' its = pass2 AsBuilt e its.
Proof.
  intros e e' its E F. induction F as [|it its H F IH]; [reflexivity|]. cbn [pass2]. rewrite IH.
  assert (encode_operand AsBuilt e' it = encode_operand AsBuilt e it) as ->; [|reflexivity].
  unfold encode_operand. destruct (it_expr it) as [[v|n]|]; cbn [eval]; rewrite ?(E n (H n eq_refl)); reflexivity.
Qed.
End Sim.

(** labels that a part of the program does not define keep their value (or lack of one) in it *)
Lemma pass1_other : forall p st fin n, pass1 AsBuilt st p = Some fin -> (forall s, In s p -> defines s <> Some n) ->
  lookup (p1_env fin) n = lookup (p1_env st) n.
Proof.
  induction p as [|s p IH]; intros st fin n H D; [injection H as <-; reflexivity|].
  destruct (stmt_end s) as [-> | Ns]; [injection H as <-; reflexivity|]. rewrite pass1_cons in H by exact Ns.
  destruct (pass1_stmt AsBuilt st s) as [st1|] eqn:E; [|discriminate].
  rewrite (IH st1 fin n H (fun t I => D t (or_intror I))). pose proof (pass1_stmt_env _ _ _ _ Ns E) as K.
  specialize (D s (or_introl eq_refl)). destruct (defines s) as [k|]; [|rewrite K; reflexivity]. destruct K as [_ ->]. cbn [lookup].
  destruct (text_eqb k n) eqn:Ek; [|reflexivity]. apply text_eqb_eq in Ek. subst k. destruct D. reflexivity.
Qed.

Lemma joined_image : forall c1 c2 f1 f2 a, is_image c1 f1 -> is_image c2 f2 -> image_end c1 <= a -> (forall x bs, In (x, bs) c2 -> a <= x) ->
  is_image (c1 ++ c2) (joined f1 f2).
Proof.
  intros c1 c2 f1 f2 a [L1 A1] [L2 A2] H1 H2.
  assert (Len : Z.of_nat (List.length (joined f1 f2)) = image_end (c1 ++ c2)).
  { unfold joined. rewrite image_end_app, app_length, skipn_length. lia. }
  split; [exact Len|]. intros x Hx. rewrite byte_at_app. unfold joined.
  destruct (Z_lt_le_dec x (image_end c1)) as [K|K].
  - rewrite nth_error_app1 by lia. rewrite (byte_at_none c2) by (intros y bs I; specialize (H2 _ _ I); lia). apply A1. lia.
  - rewrite nth_error_app2 by lia. rewrite image_end_app in Hx.
    rewrite (byte_at_none c1).
    2:{ intros y bs I. assert (F : Forall (fun w => fst w + zlen (snd w) <= image_end c1) c1) by (apply image_end_le; [apply image_end_pos|lia]).
        rewrite Forall_forall in F. specialize (F _ I). cbn [fst snd] in F. lia. }
    rewrite <- (firstn_skipn (List.length f1) f2) in A2. specialize (A2 x ltac:(lia)).
    rewrite nth_error_app2 in A2 by (rewrite firstn_length; lia). rewrite firstn_length in A2.
    replace (Nat.min (List.length f1) (List.length f2)) with (List.length f1) in A2 by lia.
    rewrite A2. destruct (byte_at c2 x); reflexivity.
Qed.

Lemma join_parts : forall file srcP srcQ src p a q whole, program_means srcP p -> program_means srcQ (SOrg a :: q) -> program_means src whole ->
  small srcP -> small srcQ -> small src -> ~ In SEnd p -> apart p q ->
  pass1_program AsBuilt whole = match pass1_program AsBuilt p with Some f => pass1 AsBuilt (mkP1 a (p1_env f) (p1_items f)) q | None => None end ->
  count defines_label (body whole) = count defines_label (body p) + count defines_label (body q) ->
  monotone AsBuilt whole -> monotone AsBuilt p ->
  (forall f, pass1_program AsBuilt p = Some f -> p1_addr f <= a /\ monotone_from AsBuilt (mkP1 a (p1_env f) (p1_items f)) q) ->
  two_parts (gaia file srcP) (gaia file srcQ) (gaia file src).
Proof.
  intros file srcP srcQ src p a q whole MP MQ MW BP BQ BW NE Ap Ew Cw Mw Mp Mq.
  destruct (C26_as_built file srcP p MP BP) as (o1 & G1 & X1 & _).
  destruct (C26_as_built file srcQ _ MQ BQ) as (o2 & G2 & X2 & _).
  destruct (C26_as_built file src whole MW BW) as (o & G & X & _).
  exists o1, o2, o. do 3 (split; [assumption|]).
  set (Q := fun n => exists s, In s q /\ mentions s n). set (P := fun n => exists s, In s p /\ mentions s n).
  assert (Pq : forall n, Q n -> forall s, In s p -> defines s <> Some n).
  { intros n (t & It & Mt) s Is D. exact (Ap s t n Is It (or_introl D) Mt). }
  assert (Qp : forall n, P n -> forall s, In s q -> defines s <> Some n).
  { intros n (t & It & Mt) s Is D. exact (Ap t s n It Is Mt (or_introl D)). }
  assert (E2 : pass1_program AsBuilt (SOrg a :: q) = pass1 AsBuilt (mkP1 a [] []) q) by reflexivity.
  unfold reference in X1, X2, X. rewrite E2 in X2. rewrite Ew in X.
  destruct (pass1_program AsBuilt p) as [f1|] eqn:E1.
  2:{ split; [|intro K; apply X in K; destruct K as (c & K); discriminate].
      rewrite X, X1. split; [intros (c & K); discriminate|intros ((c & K) & _); discriminate]. }
  destruct (Mq f1 eq_refl) as [La Mq1]. clear Mq.
  assert (J0 : jn Q (p1_items f1) (mkP1 a [] []) (mkP1 a (p1_env f1) (p1_items f1))).
  { constructor; cbn [p1_addr p1_env p1_items]; auto; [|rewrite app_nil_r; reflexivity].
    intros n Hn. rewrite (pass1_other p _ f1 n E1 (Pq n Hn)). reflexivity. }
  assert (HQ : forall s n, In s q -> mentions s n -> Q n) by (intros s n I M; exists s; auto).
  pose proof (jn_pass1 Q (p1_items f1) q _ _ J0 HQ) as J.
  pose proof (jn_monotone Q (p1_items f1) q _ _ J0 HQ Mq1) as Mq2.
  destruct (pass1 AsBuilt (mkP1 a [] []) q) as [f2|] eqn:F2, (pass1 AsBuilt (mkP1 a (p1_env f1) (p1_items f1)) q) as [f|] eqn:F; cbn [jopt] in J; try contradiction.
  2:{ split; [|intro K; apply X in K; destruct K as (c & K); discriminate].
      rewrite X, X2. split; [intros (c & K); discriminate|intros (_ & (c & K)); discriminate]. }
  assert (J1 : jopt P [] (Some f1) (Some f1)).
  { unfold pass1_program in E1. rewrite <- E1. apply jn_pass1; [constructor; auto; constructor|]. intros s n I M. exists s. auto. }
  assert (C1 : pass2 AsBuilt (p1_env f) (p1_items f1) = pass2 AsBuilt (p1_env f1) (p1_items f1)).
  { apply (jn_pass2 P); [|apply J1]. intros n Hn. rewrite (pass1_other q _ f n F (Qp n Hn)). reflexivity. }
  assert (C2 : pass2 AsBuilt (p1_env f) (p1_items f2) = pass2 AsBuilt (p1_env f2) (p1_items f2)) by (apply (jn_pass2 Q); apply J).
  rewrite (j_items _ _ _ _ J), pass2_app, C1, C2 in X.
  split.
  { rewrite X, X1, X2. destruct (pass2 AsBuilt (p1_env f1) (p1_items f1)), (pass2 AsBuilt (p1_env f2) (p1_items f2)); split;
      try (intros (c & K); discriminate); try (intros ((c & K) & (c' & K')); discriminate); intros; eauto. }
  intro X0. pose proof X0 as Y. apply X in Y. destruct Y as (code & Y).
  destruct (pass2 AsBuilt (p1_env f1) (p1_items f1)) as [c1|] eqn:P1; [|discriminate].
  destruct (pass2 AsBuilt (p1_env f2) (p1_items f2)) as [c2|] eqn:P2; [|discriminate].
  assert (Z1 : exit_code o1 = 0) by (apply X1; eauto). assert (Z2 : exit_code o2 = 0) by (apply X2; eauto).
  destruct (success file srcP p o1 MP BP G1 Z1) as (g1 & d1 & U1 & V1 & S1 & I1). rewrite E1 in U1. injection U1 as <-. rewrite P1 in V1. injection V1 as <-.
  destruct (success file srcQ _ o2 MQ BQ G2 Z2) as (g2 & d2 & U2 & V2 & S2 & I2). rewrite E2 in U2. injection U2 as <-. rewrite P2 in V2. injection V2 as <-.
  destruct (success file src whole o MW BW G X0) as (g & d & U & V & S & I). rewrite Ew in U. injection U as <-.
  rewrite (j_items _ _ _ _ J), pass2_app, C1, C2 in V. injection V as <-.
  pose proof (program_16 _ _ MP) as SP. pose proof (program_16 _ _ MQ) as SQ.
  assert (Ha : 0 <= a) by (inversion SQ; subst; cbn in *; lia).
  assert (SQ' : Forall stmt16 (body q)).
  { assert (SQ2 : Forall stmt16 q) by (inversion SQ; assumption). clear - SQ2. induction SQ2 as [|s q H F IH]; [constructor|]. destruct s; cbn [body]; constructor; auto. }
  destruct (pass1_ascend p (mkP1 0 [] []) _ SP NE (Z.le_refl 0) Mp E1) as (A0 & its & K1 & K2 & K3). cbn [p1_items app p1_addr] in K1, K3.
  rewrite pass1_body in F2.
  destruct (pass1_ascend (body q) (mkP1 a [] []) _ SQ' (body_no_end q) Ha (monotone_body _ _ Mq2) F2) as (A1 & its2 & L1 & L2 & L3). cbn [p1_items app p1_addr] in L1, L3.
  rewrite K1 in P1. rewrite L1 in P2.
  destruct (pass2_pieces _ _ _ _ _ K2 K3 P1 ltac:(lia)) as (W1 & W2 & _).
  destruct (pass2_pieces _ _ _ _ _ L2 L3 P2 Ha) as (_ & _ & W3).
  split.
  - apply (image_unique (c1 ++ c2)); [apply I; exact Mw|]. apply joined_image with (a := a).
    + apply I1. exact Mp.
    + apply I2. split; [exact Ha|exact Mq2].
    + lia.
    + intros x bs K. apply W3 in K. lia.
  - assert (code_size (c1 ++ c2) = code_size c1 + code_size c2) as Cs.
    { clear. unfold code_size. induction c1 as [|w c IH]; cbn [app fold_right]; [lia|]. rewrite IH. lia. }
    rewrite Cs, Cw in S. cbn [body] in S2. rewrite count_cons in S2. cbn [defines_label defines] in S2.
    do 4 eexists. split; [exact S1|]. split; [exact S2|]. replace (0 + count defines_label (body q)) with (count defines_label (body q)) by lia. exact S.
Qed.

(** the second part starts with an origin *)
Theorem C81_separate : forall file srcP srcQ src p a q,
  program_means srcP p -> program_means srcQ (SOrg a :: q) -> program_means src (p ++ SOrg a :: q) ->
  small srcP -> small srcQ -> small src -> ~ In SEnd p -> apart p q -> monotone AsBuilt (p ++ SOrg a :: q) ->
  two_parts (gaia file srcP) (gaia file srcQ) (gaia file src).
Proof.
  intros file srcP srcQ src p a q MP MQ MW BP BQ BW NE Ap Mo.
  apply (join_parts file srcP srcQ src p a q (p ++ SOrg a :: q)); auto.
  - unfold pass1_program. rewrite pass1_app by exact NE. destruct (pass1 AsBuilt (mkP1 0 [] []) p); reflexivity.
  - rewrite body_app, count_app by exact NE. rewrite (body_id p NE). cbn [body]. rewrite count_cons. cbn. lia.
  - apply (monotone_front _ _ _ Mo).
  - intros f E. pose proof (monotone_back _ _ _ _ NE E Mo) as M. cbn [monotone_from pass1_stmt] in M. exact M.
Qed.

(** the second part follows the first one; it is assembled for the address where the first one ends *)
Theorem C81_follows : forall file srcP srcQ src p a q, address AsBuilt p (List.length p) = Some a ->
  program_means srcP p -> program_means srcQ (SOrg a :: q) -> program_means src (p ++ q) ->
  small srcP -> small srcQ -> small src -> ~ In SEnd p -> apart p q -> monotone AsBuilt (p ++ q) ->
  two_parts (gaia file srcP) (gaia file srcQ) (gaia file src).
Proof.
  intros file srcP srcQ src p a q Ad MP MQ MW BP BQ BW NE Ap Mo.
  unfold address in Ad. rewrite body_id, firstn_all in Ad by exact NE. destruct (pass1_program AsBuilt p) as [f|] eqn:E; [|discriminate]. injection Ad as Ad.
  assert (Ef : mkP1 a (p1_env f) (p1_items f) = f) by (destruct f; cbn in *; congruence).
  apply (join_parts file srcP srcQ src p a q (p ++ q)); auto.
  - rewrite E, Ef. unfold pass1_program in *. rewrite pass1_app, E by exact NE. reflexivity.
  - rewrite body_app, count_app by exact NE. rewrite (body_id p NE). reflexivity.
  - apply (monotone_front _ _ _ Mo).
  - intros g E'. rewrite E in E'. injection E' as <-. rewrite Ef. split; [lia|]. exact (monotone_back _ _ _ _ NE E Mo).
Qed.

Example C81_case : exists file srcP srcQ src p a q o1 o2 o,
  program_means srcP p /\ program_means srcQ (SOrg a :: q) /\ program_means src (p ++ SOrg a :: q) /\ small srcP /\ small srcQ /\ small src /\
  ~ In SEnd p /\ apart p q /\ monotone AsBuilt (p ++ SOrg a :: q) /\
  gaia file srcP = Ret o1 /\ gaia file srcQ = Ret o2 /\ gaia file src = Ret o /\ exit_code o = 0 /\
  binary o1 = [240; 1; 234; 234] /\ binary o2 = [0; 0; 0; 0; 0; 0; 76; 9; 0; 96] /\ binary o = [240; 1; 234; 234; 0; 0; 76; 9; 0; 96].
Proof.
  set (l1 := [T "S beq L"; T " nop"; T "L nop"]). set (l2 := [T " jmp OUT"; T "OUT rts"]).
  destruct (statements l1) as [p|] eqn:E1; [|vm_compute in E1; discriminate].
  destruct (statements l2) as [q|] eqn:E2; [|vm_compute in E2; discriminate].
  exists (T "a.asm"), (join l1), (join (T ".org 6" :: l2)), (join (l1 ++ T ".org 6" :: l2)), p, 6, q. vm_compute in E1, E2. injection E1 as <-. injection E2 as <-.
  do 3 eexists. do 3 (split; [apply means_lines; vm_compute; reflexivity|]).
  do 3 (split; [vm_compute; reflexivity|]). split; [intro K; repeat destruct K as [K|K]; (discriminate || exact K)|].
  split.
  { intros s t n Is It Ms Mt.
    assert (Hs : n = T "S" \/ n = T "L").
    { repeat destruct Is as [<-|Is]; try contradiction; destruct Ms as [D|(lab & m & o & D & O)];
        solve [cbn in D; try discriminate; injection D as <-; auto|discriminate|injection D as <- <- <-; cbn in O; try discriminate; injection O as <-; auto]. }
    assert (Ht : n = T "OUT").
    { repeat destruct It as [<-|It]; try contradiction; destruct Mt as [D|(lab & m & o & D & O)];
        solve [cbn in D; try discriminate; injection D as <-; auto|discriminate|injection D as <- <- <-; cbn in O; try discriminate; injection O as <-; auto]. }
    subst n. destruct Hs as [K|K]; vm_compute in K; discriminate. }
  split; [vm_compute; repeat split; discriminate|].
  do 6 (split; [vm_compute; reflexivity|]). reflexivity.
Qed.

Example C81_follows_case : exists file srcP srcQ src p a q o, address AsBuilt p (List.length p) = Some a /\
  program_means srcP p /\ program_means srcQ (SOrg a :: q) /\ program_means src (p ++ q) /\ small srcP /\ small srcQ /\ small src /\
  ~ In SEnd p /\ monotone AsBuilt (p ++ q) /\ (forall s n, In s q -> ~ mentions s n) /\ q <> [] /\
  gaia file src = Ret o /\ exit_code o = 0 /\ binary o = [208; 254; 169; 7; 96].
Proof.
  set (l1 := [T "L bne L"]). set (l2 := [T " lda #7"; T " rts"]).
  destruct (statements l1) as [p|] eqn:E1; [|vm_compute in E1; discriminate].
  destruct (statements l2) as [q|] eqn:E2; [|vm_compute in E2; discriminate].
  exists (T "a.asm"), (join l1), (join (T ".org 2" :: l2)), (join (l1 ++ l2)), p, 2, q. vm_compute in E1, E2. injection E1 as <-. injection E2 as <-.
  eexists. split; [vm_compute; reflexivity|]. do 3 (split; [apply means_lines; vm_compute; reflexivity|]).
  do 3 (split; [vm_compute; reflexivity|]). split; [intro K; repeat destruct K as [K|K]; (discriminate || exact K)|].
  split; [vm_compute; repeat split; discriminate|]. split.
  { intros s n Is Ms. repeat destruct Is as [<-|Is]; try contradiction; destruct Ms as [D|(lab & m & o & D & O)];
      solve [cbn in D; discriminate|injection D as <- <- <-; cbn in O; discriminate]. }
  split; [discriminate|]. do 2 (split; [vm_compute; reflexivity|]). reflexivity.
Qed.
