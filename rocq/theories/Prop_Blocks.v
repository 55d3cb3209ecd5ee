(** Prop_Blocks.v -- C92: the order of two blocks of code with origins of their own. *)
From Verif Require Import Base Proof_Base Model_Main Spec_Isa Spec_Text Spec_Asm Spec_Diag Spec_Prog Spec_Report Spec_Edit
  Proof_Core Proof_Modes Proof_Diag Proof_Ref Proof_Sim2 Proof_Image Proof_Kept Proof_Prog Proof_Check Proof_Place Proof_Rewrite Proof_Reloc
  Prop_Program Prop_Edit Prop_Move Prop_Code Prop_Join.

(** no origin moves backwards, or no instruction refers to a later label *)
Definition orderly (p : list stmt) : Prop := monotone AsBuilt p \/ no_forward_reference AsBuilt p.

(** what follows does not depend on the address *)
Definition own_origin (p : list stmt) : Prop := match p with [] | SOrg _ :: _ | SEnd :: _ => True | _ => False end.

Definition agree (e e' : env) : Prop := forall n v v', lookup e n = Some v -> lookup e' n = Some v' -> v = v'.

Lemma denoted_none : forall m o v md md', denoted_mode m o None = Some md -> denoted_mode m o (Some v) = Some md' -> md' = md.
Proof.
  intros m o v md md' H H'. unfold denoted_mode in *. destruct (is_branch_name m); [congruence|]. destruct (is_jump_name m); [congruence|].
  destruct o; try discriminate; congruence.
Qed.

Lemma has_mode_known : forall m md x y, has_mode AsBuilt m md true = Some x -> has_mode AsBuilt m md false = Some y -> y = x.
Proof.
  intros m md x y H H'. unfold has_mode in *. destruct (listed m md); [congruence|]. destruct md; try discriminate;
    rewrite Bool.andb_false_r in H; discriminate.
Qed.

Lemma instr_agree : forall m o st st' f f', p1_addr st' = p1_addr st -> agree (p1_env st) (p1_env st') ->
  pass1_instr AsBuilt st m o = Some f -> pass1_instr AsBuilt st' m o = Some f' ->
  exists it, p1_items f = p1_items st ++ [it] /\ p1_items f' = p1_items st' ++ [it] /\ p1_addr f' = p1_addr f /\ p1_env f = p1_env st /\ p1_env f' = p1_env st'.
Proof.
  intros m o st st' f f' A E H H'. unfold pass1_instr in *. cbv zeta in *.
  destruct (denoted_mode m o (match operand_expr o with Some x => eval (p1_env st) x | None => None end)) as [md|] eqn:D; [|discriminate].
  destruct (denoted_mode m o (match operand_expr o with Some x => eval (p1_env st') x | None => None end)) as [md'|] eqn:D'; [|discriminate].
  destruct (has_mode AsBuilt m md _) as [[op size]|] eqn:K; [|discriminate]. destruct (has_mode AsBuilt m md' _) as [[op' size']|] eqn:K'; [|discriminate].
  assert (Q : md' = md /\ (op', size') = (op, size)).
  { destruct (operand_expr o) as [[v|n]|]; cbn [eval] in *; try (rewrite D in D'; injection D' as <-; rewrite K in K'; injection K' as <- <-; auto; fail).
    destruct (lookup (p1_env st) n) as [v|] eqn:L, (lookup (p1_env st') n) as [v'|] eqn:L'.
    - rewrite (E n v v' L L') in *. rewrite D in D'. injection D' as <-. rewrite K in K'. injection K' as <- <-. auto.
    - pose proof (denoted_none _ _ _ _ _ D' D) as ->. split; [reflexivity|]. exact (has_mode_known _ _ _ _ K K').
    - pose proof (denoted_none _ _ _ _ _ D D') as ->. split; [reflexivity|]. symmetry. exact (has_mode_known _ _ _ _ K' K).
    - rewrite D in D'. injection D' as <-. rewrite K in K'. injection K' as <- <-. auto. }
  destruct Q as [-> Q]. injection Q as -> ->. injection H as <-. injection H' as <-. cbn [p1_addr p1_env p1_items]. rewrite A. eexists. auto.
Qed.

(** the same part of a program, in two contexts whose labels do not contradict each other *)
Lemma part_agree : forall p st st' f f', p1_addr st' = p1_addr st -> agree (p1_env st) (p1_env st') ->
  pass1 AsBuilt st p = Some f -> pass1 AsBuilt st' p = Some f' ->
  exists its new, p1_items f = p1_items st ++ its /\ p1_items f' = p1_items st' ++ its /\ p1_addr f' = p1_addr f /\
    p1_env f = new ++ p1_env st /\ p1_env f' = new ++ p1_env st'.
Proof.
  induction p as [|s p IH]; intros st st' f f' A E H H'.
  { injection H as <-. injection H' as <-. exists [], []. rewrite !app_nil_r. auto. }
  destruct (stmt_end s) as [-> | Ns]. { injection H as <-. injection H' as <-. exists [], []. rewrite !app_nil_r. auto. }
  rewrite pass1_cons in H, H' by exact Ns. destruct (pass1_stmt AsBuilt st s) as [g|] eqn:S; [|discriminate].
  destruct (pass1_stmt AsBuilt st' s) as [g'|] eqn:S'; [|discriminate].
  enough (K : exists its new, p1_items g = p1_items st ++ its /\ p1_items g' = p1_items st' ++ its /\ p1_addr g' = p1_addr g /\
    p1_env g = new ++ p1_env st /\ p1_env g' = new ++ p1_env st').
  { destruct K as (i1 & n1 & K1 & K2 & K3 & K4 & K5).
    assert (E1 : agree (p1_env g) (p1_env g')).
    { rewrite K4, K5. intros n v v' L L'. clear - E L L'. induction n1 as [|[k w] n1 IH]; cbn [app lookup] in *; [eapply E; eauto|].
      destruct (text_eqb k n); [congruence|auto]. }
    destruct (IH _ _ _ _ K3 E1 H H') as (i2 & n2 & J1 & J2 & J3 & J4 & J5). exists (i1 ++ i2), (n2 ++ n1).
    rewrite J1, J2, J4, J5, K1, K2, K4, K5, <- !app_assoc. auto. }
  assert (Def : forall n v v' s1 s1', v' = v -> define st n v = Some s1 -> define st' n v' = Some s1' ->
    p1_items s1 = p1_items st /\ p1_items s1' = p1_items st' /\ p1_addr s1' = p1_addr s1 /\ p1_env s1 = [(n, v)] ++ p1_env st /\ p1_env s1' = [(n, v)] ++ p1_env st').
  { intros n v v' s1 s1' -> D D'. apply define_some in D. apply define_some in D'. destruct D as [_ ->], D' as [_ ->]. cbn. auto. }
  destruct s as [|n|n v|v| |lab m o]; cbn [pass1_stmt] in S, S'.
  - injection S as <-. injection S' as <-. exists [], []. rewrite !app_nil_r. auto.
  - destruct (Def n _ _ _ _ A S S') as (D1 & D2 & D3 & D4 & D5). exists [], [(n, p1_addr st)]. rewrite !app_nil_r. auto.
  - destruct (Def n _ _ _ _ eq_refl S S') as (D1 & D2 & D3 & D4 & D5). exists [], [(n, v)]. rewrite !app_nil_r. auto.
  - injection S as <-. injection S' as <-. exists [], []. rewrite !app_nil_r. auto.
  - congruence.
  - destruct lab as [n|].
    + destruct (define st n (p1_addr st)) as [h|] eqn:D; [|discriminate]. destruct (define st' n (p1_addr st')) as [h'|] eqn:D'; [|discriminate].
      destruct (Def n _ _ _ _ A D D') as (D1 & D2 & D3 & D4 & D5).
      assert (Eh : agree (p1_env h) (p1_env h')).
      { rewrite D4, D5. intros k v v' L L'. cbn [app lookup] in *. destruct (text_eqb n k); [congruence|eapply E; eauto]. }
      destruct (instr_agree _ _ _ _ _ _ D3 Eh S S') as (it & I1 & I2 & I3 & I4 & I5). exists [it], [(n, p1_addr st)].
      rewrite I1, I2, I4, I5, D1, D2, D4, D5. auto.
    + destruct (instr_agree _ _ _ _ _ _ A E S S') as (it & I1 & I2 & I3 & I4 & I5). exists [it], []. rewrite I1, I2, I4, I5. auto.
Qed.

Lemma lookup_app : forall x y n, lookup (x ++ y) n = match lookup x n with Some v => Some v | None => lookup y n end.
Proof. induction x as [|[k v] x IH]; intros y n; cbn [app lookup]; [reflexivity|]. destruct (text_eqb k n); auto. Qed.

Lemma orderly_image : forall file src p o code, program_means src p -> small src -> gaia file src = Ret o -> exit_code o = 0 -> orderly p ->
  reference AsBuilt p = Some code -> is_image code (binary o).
Proof.
  intros file src p o code M B G X [Mo|Nf] R.
  - destruct (assembled _ _ _ _ M B G X) as (st & c & _ & R' & _ & _ & _ & _ & I). rewrite R in R'. injection R' as <-. auto.
  - destruct (C27_no_forward_partial _ _ _ _ M B G X Nf) as (c & R' & I). rewrite R in R'. injection R' as <-. exact I.
Qed.

Theorem C92_blocks_partial : forall file src src' pre a A ea b B eb post o o',
  program_means src (pre ++ (SOrg a :: A) ++ (SOrg b :: B) ++ post) -> program_means src' (pre ++ (SOrg b :: B) ++ (SOrg a :: A) ++ post) ->
  small src -> small src' -> ~ In SEnd pre -> ~ In SEnd A -> ~ In SEnd B -> (forall v, ~ In (SOrg v) A) -> (forall v, ~ In (SOrg v) B) -> own_origin post ->
  address AsBuilt (pre ++ SOrg a :: A) (List.length (pre ++ SOrg a :: A)) = Some ea ->
  address AsBuilt (pre ++ SOrg b :: B) (List.length (pre ++ SOrg b :: B)) = Some eb ->
  ea <= b \/ eb <= a ->
  orderly (pre ++ (SOrg a :: A) ++ (SOrg b :: B) ++ post) -> orderly (pre ++ (SOrg b :: B) ++ (SOrg a :: A) ++ post) ->
  gaia file src = Ret o -> exit_code o = 0 -> gaia file src' = Ret o' -> exit_code o' = 0 ->
  binary o' = binary o /\ exists bytes symbols, SuccessReport bytes symbols (stdout o) /\ SuccessReport bytes symbols (stdout o').
Proof.
  intros file src src' pre a A ea b B eb post o o' M M' Sm Sm' N0 NA NB OA OB Po Ea Eb Dj Or Or' G X G' X'.
  destruct (success file src _ o M Sm G X) as (f & c & U & V & S1 & _). destruct (success file src' _ o' M' Sm' G' X') as (f' & c' & U' & V' & S2 & _).
  assert (Im : is_image c (binary o)) by (apply (orderly_image file src _ o c M Sm G X Or); unfold reference; rewrite U; exact V).
  assert (Im' : is_image c' (binary o')) by (apply (orderly_image file src' _ o' c' M' Sm' G' X' Or'); unfold reference; rewrite U'; exact V').
  pose proof (program_16 _ _ M) as S16. apply Forall_app in S16. destruct S16 as [_ S16]. apply Forall_app in S16. destruct S16 as [FA S16].
  apply Forall_app in S16. destruct S16 as [FB _]. inversion FA as [|? ? Ha FA']; subst. inversion FB as [|? ? Hb FB']; subst. cbn [stmt16] in Ha, Hb.
  assert (NSA : ~ In SEnd (SOrg a :: A)) by (intros [K|K]; [discriminate|exact (NA K)]).
  assert (NSB : ~ In SEnd (SOrg b :: B)) by (intros [K|K]; [discriminate|exact (NB K)]).
  assert (N0A : ~ In SEnd (pre ++ SOrg a :: A)) by (intro K; apply in_app_or in K; tauto).
  assert (N0B : ~ In SEnd (pre ++ SOrg b :: B)) by (intro K; apply in_app_or in K; tauto).
  unfold address in Ea, Eb. rewrite body_id, firstn_all in Ea by exact N0A. rewrite body_id, firstn_all in Eb by exact N0B.
  unfold pass1_program in *. rewrite pass1_app in U, U', Ea, Eb by exact N0.
  destruct (pass1 AsBuilt (mkP1 0 [] []) pre) as [f0|] eqn:E0; [|discriminate].
  rewrite pass1_app in U by exact NSA. rewrite pass1_app in U' by exact NSB.
  destruct (pass1 AsBuilt f0 (SOrg a :: A)) as [fa|] eqn:EA; [|discriminate]. injection Ea as Ea.
  destruct (pass1 AsBuilt f0 (SOrg b :: B)) as [fb|] eqn:EB; [|discriminate]. injection Eb as Eb.
  rewrite pass1_app in U by exact NSB. rewrite pass1_app in U' by exact NSA.
  destruct (pass1 AsBuilt fa (SOrg b :: B)) as [fab|] eqn:EAB; [|discriminate]. destruct (pass1 AsBuilt fb (SOrg a :: A)) as [fba|] eqn:EBA; [|discriminate].
  cbn [pass1 pass1_stmt] in EA, EB, EAB, EBA.
  destruct (pass1_extends _ _ _ _ EA) as [_ XA]. destruct (pass1_extends _ _ _ _ EB) as [_ XB].
  destruct (pass1_extends _ _ _ _ EAB) as [_ XAB]. destruct (pass1_extends _ _ _ _ EBA) as [_ XBA]. cbn [p1_env] in *.
  assert (AgA : agree (p1_env f0) (p1_env fb)) by (intros n v v' L L'; apply XB in L; congruence).
  assert (AgB : agree (p1_env f0) (p1_env fa)) by (intros n v v' L L'; apply XA in L; congruence).
  destruct (part_agree A (mkP1 a (p1_env f0) (p1_items f0)) (mkP1 a (p1_env fb) (p1_items fb)) _ _ eq_refl AgA EA EBA) as (iA & nA & A1 & A2 & A3 & A4 & A5).
  destruct (part_agree B (mkP1 b (p1_env f0) (p1_items f0)) (mkP1 b (p1_env fa) (p1_items fa)) _ _ eq_refl AgB EB EAB) as (iB & nB & B1 & B2 & B3 & B4 & B5).
  cbn [p1_env p1_items p1_addr] in *.
  (* the same labels *)
  assert (Lk : forall n, lookup (p1_env fba) n = lookup (p1_env fab) n).
  { intro n. rewrite A5, B5, A4, B4, !lookup_app. destruct (lookup nA n) as [v|] eqn:LA, (lookup nB n) as [w|] eqn:LB; try reflexivity.
    assert (K : lookup (p1_env fa) n = Some v) by (rewrite A4, lookup_app, LA; reflexivity). apply XAB in K. rewrite B5, lookup_app, LB in K. congruence. }
  (* the rest *)
  assert (Rest : exists its new, p1_items f = p1_items fab ++ its /\ p1_items f' = p1_items fba ++ its /\ p1_env f = new ++ p1_env fab /\ p1_env f' = new ++ p1_env fba).
  { assert (Ag : agree (p1_env fab) (p1_env fba)) by (intros n v v' L L'; rewrite Lk in L'; congruence).
    destruct post as [|[| | |w| |] post]; try contradiction Po; cbn [pass1 pass1_stmt] in U, U'.
    - injection U as <-. injection U' as <-. exists [], []. rewrite !app_nil_r. auto.
    - destruct (part_agree post (mkP1 w (p1_env fab) (p1_items fab)) (mkP1 w (p1_env fba) (p1_items fba)) _ _ eq_refl Ag U U') as (i & n & R1 & R2 & _ & R4 & R5).
      exists i, n. auto.
    - injection U as <-. injection U' as <-. exists [], []. rewrite !app_nil_r. auto. }
  destruct Rest as (iP & nP & P1 & P2 & P4 & P5).
  assert (Lf : forall n, lookup (p1_env f') n = lookup (p1_env f) n).
  { intro n. rewrite P4, P5, !lookup_app, Lk. reflexivity. }
  rewrite P2, A2, B1, <- !app_assoc, !pass2_app in V'. rewrite P1, B2, A1, <- !app_assoc, !pass2_app in V.
  rewrite !(pass2_alike (p1_env f) (p1_env f') _ Lf) in V'.
  destruct (pass2 AsBuilt (p1_env f) (p1_items f0)) as [c0|]; [|discriminate].
  destruct (pass2 AsBuilt (p1_env f) iA) as [cA|] eqn:KA; [|discriminate]. destruct (pass2 AsBuilt (p1_env f) iB) as [cB|] eqn:KB; [|discriminate].
  destruct (pass2 AsBuilt (p1_env f) iP) as [cP|]; [|discriminate]. injection V as <-. injection V' as <-.
  (* the places *)
  assert (Place : forall org p st g its cs env, Forall stmt16 p -> ~ In SEnd p -> 0 <= org -> (forall v, ~ In (SOrg v) p) ->
    pass1 AsBuilt (mkP1 org (p1_env st) (p1_items st)) p = Some g -> p1_items g = p1_items st ++ its -> pass2 AsBuilt env its = Some cs ->
    forall y bs, In (y, bs) cs -> org <= y /\ y + zlen bs <= p1_addr g).
  { intros org p st g its cs env F N H O E I K.
    destruct (pass1_ascend p (mkP1 org (p1_env st) (p1_items st)) g F N H (no_org_monotone _ _ O) E) as (_ & its' & I' & Q1 & Q2). cbn [p1_items p1_addr] in *.
    rewrite I in I'. apply app_inv_head in I'. subst its'. destruct (pass2_pieces _ _ _ _ _ Q1 Q2 K H) as (_ & _ & W). exact W. }
  pose proof (Place a A f0 fa iA cA _ FA' NA ltac:(lia) OA EA A1 KA) as WA.
  pose proof (Place b B f0 fb iB cB _ FB' NB ltac:(lia) OB EB B1 KB) as WB.
  assert (Apart : forall x, byte_at cA x = None \/ byte_at cB x = None).
  { intro x. destruct (Z_lt_le_dec x a) as [K|K]; [left; apply byte_at_none; intros y bs I; apply WA in I; lia|].
    destruct (Z_lt_le_dec x ea) as [K1|K1]; [|left; apply byte_at_none; intros y bs I; apply WA in I; lia].
    right. apply byte_at_none. intros y bs I. apply WB in I. lia. }
  assert (Same : is_image (c0 ++ cB ++ cA ++ cP) (binary o)).
  { destruct Im as [L I]. rewrite !image_end_app in L, I. split; rewrite !image_end_app; [lia|]. intros x Hx. rewrite I by lia. f_equal.
    rewrite !byte_at_app. destruct (byte_at cP x); [reflexivity|]. destruct (Apart x) as [-> | ->]; [destruct (byte_at cB x)|destruct (byte_at cA x)]; reflexivity. }
  split; [exact (image_unique _ _ _ Im' Same)|].
  exists (code_size (c0 ++ cA ++ cB ++ cP)), (count defines_label (body (pre ++ (SOrg a :: A) ++ (SOrg b :: B) ++ post))). split; [exact S1|].
  assert (Cs : forall u v, code_size (u ++ v) = code_size u + code_size v).
  { intros u v. induction u as [|[y bs] u IHu]; [reflexivity|]. unfold code_size in *. cbn [app fold_right] in *. lia. }
  assert (code_size (c0 ++ cA ++ cB ++ cP) = code_size (c0 ++ cB ++ cA ++ cP)) as -> by (rewrite !Cs; lia).
  assert (count defines_label (body (pre ++ (SOrg a :: A) ++ (SOrg b :: B) ++ post)) = count defines_label (body (pre ++ (SOrg b :: B) ++ (SOrg a :: A) ++ post))) as ->; [|exact S2].
  rewrite !body_app, !count_app by assumption. lia.
Qed.

(** the first block refers forwards to the second one, and in the other order backwards; the constant D is of the part in front *)
Example C92_case : exists file src src' pre a A ea b B eb post o o',
  program_means src (pre ++ (SOrg a :: A) ++ (SOrg b :: B) ++ post) /\ program_means src' (pre ++ (SOrg b :: B) ++ (SOrg a :: A) ++ post) /\
  small src /\ small src' /\ ~ In SEnd pre /\ ~ In SEnd A /\ ~ In SEnd B /\ (forall v, ~ In (SOrg v) A) /\ (forall v, ~ In (SOrg v) B) /\ own_origin post /\
  address AsBuilt (pre ++ SOrg a :: A) (List.length (pre ++ SOrg a :: A)) = Some ea /\
  address AsBuilt (pre ++ SOrg b :: B) (List.length (pre ++ SOrg b :: B)) = Some eb /\ (ea <= b \/ eb <= a) /\
  orderly (pre ++ (SOrg a :: A) ++ (SOrg b :: B) ++ post) /\ orderly (pre ++ (SOrg b :: B) ++ (SOrg a :: A) ++ post) /\
  gaia file src = Ret o /\ exit_code o = 0 /\ gaia file src' = Ret o' /\ exit_code o' = 0 /\
  binary o = [234; 0; 76; 7; 0; 165; 9; 96; 240; 253].
Proof.
  set (l0 := [T "D = 9"; T " nop"]). set (l1 := [T " jmp M"; T " lda D"]). set (l2 := [T "M rts"; T " beq M"]).
  destruct (statements l0) as [pre|] eqn:E0; [|vm_compute in E0; discriminate].
  destruct (statements l1) as [A|] eqn:E1; [|vm_compute in E1; discriminate].
  destruct (statements l2) as [B|] eqn:E2; [|vm_compute in E2; discriminate].
  exists (T "a.asm"), (join (l0 ++ [T ".org 2"] ++ l1 ++ [T ".org 7"] ++ l2 ++ [T ".end"])), (join (l0 ++ [T ".org 7"] ++ l2 ++ [T ".org 2"] ++ l1 ++ [T ".end"])),
    pre, 2, A, 7, 7, B, 10, [SEnd].
  vm_compute in E0, E1, E2. injection E0 as <-. injection E1 as <-. injection E2 as <-.
  do 2 eexists. do 2 (split; [apply means_lines; vm_compute; reflexivity|]). do 2 (split; [vm_compute; reflexivity|]).
  do 3 (split; [intro K; repeat destruct K as [K|K]; (discriminate || exact K)|]).
  do 2 (split; [intros v K; repeat destruct K as [K|K]; (discriminate || exact K)|]).
  split; [exact I|]. do 2 (split; [vm_compute; reflexivity|]). split; [lia|].
  split; [left; vm_compute; repeat split; discriminate|].
  split.
  { right. intros k lab m op x e K Hx He. do 9 (destruct k as [|k]; [try discriminate K; vm_compute in K; injection K as <- <- <-; vm_compute in Hx, He; injection Hx as <-; injection He as <-; reflexivity|]).
    vm_compute in K. destruct k; discriminate K. }
  do 4 (split; [vm_compute; reflexivity|]). vm_compute; reflexivity.
Qed.

(** with a backward origin and a reference to a later label the order matters: zeros are written behind the first block *)
Theorem C92_refuted : exists file src src' a A ea b B eb o o',
  program_means src ((SOrg a :: A) ++ SOrg b :: B) /\ program_means src' ((SOrg b :: B) ++ SOrg a :: A) /\
  small src /\ small src' /\ ~ In SEnd A /\ ~ In SEnd B /\ (forall v, ~ In (SOrg v) A) /\ (forall v, ~ In (SOrg v) B) /\
  address AsBuilt (SOrg a :: A) (List.length (SOrg a :: A)) = Some ea /\
  address AsBuilt (SOrg b :: B) (List.length (SOrg b :: B)) = Some eb /\ (ea <= b \/ eb <= a) /\
  gaia file src = Ret o /\ exit_code o = 0 /\ gaia file src' = Ret o' /\ exit_code o' = 0 /\
  binary o = [76; 3; 0; 96; 0; 234] /\ binary o' = [76; 3; 0; 96; 0; 234; 0; 0; 0].
Proof.
  set (l1 := [T " jmp M"; T "M rts"]). set (l2 := [T " nop"]).
  destruct (statements l1) as [A|] eqn:E1; [|vm_compute in E1; discriminate].
  destruct (statements l2) as [B|] eqn:E2; [|vm_compute in E2; discriminate].
  exists (T "a.asm"), (join ([T ".org 0"] ++ l1 ++ [T ".org 5"] ++ l2)), (join ([T ".org 5"] ++ l2 ++ [T ".org 0"] ++ l1)), 0, A, 4, 5, B, 6.
  vm_compute in E1, E2. injection E1 as <-. injection E2 as <-.
  do 2 eexists. do 2 (split; [apply means_lines; vm_compute; reflexivity|]). do 2 (split; [vm_compute; reflexivity|]).
  do 2 (split; [intro K; repeat destruct K as [K|K]; (discriminate || exact K)|]).
  do 2 (split; [intros v K; repeat destruct K as [K|K]; (discriminate || exact K)|]).
  do 2 (split; [vm_compute; reflexivity|]). split; [lia|].
  do 5 (split; [vm_compute; reflexivity|]). vm_compute; reflexivity.
Qed.
