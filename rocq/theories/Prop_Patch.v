(** Prop_Patch.v -- C82: a part of a program can be replaced by another one that takes the same room and has the same
    labels; the rest of the memory does not change. *)
From Verif Require Import Base Proof_Base Model_Main Spec_Isa Spec_Text Spec_Asm Spec_Diag Spec_Prog Spec_Report Spec_Edit
  Proof_Core Proof_Modes Proof_Diag Proof_Ref Proof_Sim2 Proof_Image Proof_Kept Proof_Prog Proof_Check Proof_Place Proof_Rewrite Proof_Reloc
  Prop_Program Prop_Edit Prop_Move Prop_Join.

(** the byte of a binary at an address; zero behind its end *)
Definition memory_of (bin : list Z) (x : Z) : Z := nth (Z.to_nat x) bin 0.

Lemma image_memory : forall c f x, is_image c f -> 0 <= x -> memory_of f x = match byte_at c x with Some b => b | None => 0 end.
Proof.
  intros c f x [L A] Hx. unfold memory_of. destruct (Z_lt_le_dec x (image_end c)) as [K|K].
  - specialize (A x ltac:(lia)). rewrite (nth_error_nth' _ 0) in A by lia. injection A as ->. reflexivity.
  - rewrite nth_overflow by lia. rewrite (byte_at_none c); [reflexivity|]. intros y bs I.
    assert (F : Forall (fun w => fst w + zlen (snd w) <= image_end c) c) by (apply image_end_le; [apply image_end_pos|lia]).
    rewrite Forall_forall in F. specialize (F _ I). cbn [fst snd] in F. lia.
Qed.

Definition anybody : text -> Prop := fun _ => True.

(** the two states behind the replaced part are the same but for the instructions *)
Lemma behind : forall post st st' f f', p1_addr st' = p1_addr st -> (forall n, lookup (p1_env st') n = lookup (p1_env st) n) ->
  pass1 AsBuilt st post = Some f -> pass1 AsBuilt st' post = Some f' ->
  (forall n, lookup (p1_env f') n = lookup (p1_env f) n) /\
  exists its, p1_items f = p1_items st ++ its /\ p1_items f' = p1_items st' ++ its.
Proof.
  intros post st st' f f' A E F F'.
  assert (B : forall s, s = st \/ s = st' -> jn anybody (p1_items s) (mkP1 (p1_addr st) (p1_env st) []) s).
  { intros s [-> | ->]; constructor; cbn [p1_addr p1_env p1_items]; auto; rewrite app_nil_r; reflexivity. }
  pose proof (jn_pass1 anybody _ post _ _ (B st (or_introl eq_refl)) (fun _ _ _ _ => Logic.I)) as J.
  pose proof (jn_pass1 anybody _ post _ _ (B st' (or_intror eq_refl)) (fun _ _ _ _ => Logic.I)) as J'.
  rewrite F in J. rewrite F' in J'. destruct (pass1 AsBuilt (mkP1 (p1_addr st) (p1_env st) []) post) as [g|]; [|contradiction].
  cbn [jopt] in J, J'. split.
  - intro n. rewrite (j_env _ _ _ _ J n Logic.I), (j_env _ _ _ _ J' n Logic.I). reflexivity.
  - exists (p1_items g). split; [apply (j_items _ _ _ _ J)|apply (j_items _ _ _ _ J')].
Qed.

Theorem C82_patch : forall file src src' pre mid mid' post a b e e' o o',
  program_means src (pre ++ mid ++ post) -> program_means src' (pre ++ mid' ++ post) -> small src -> small src' ->
  ~ In SEnd pre -> ~ In SEnd mid -> ~ In SEnd mid' ->
  monotone AsBuilt (pre ++ mid ++ post) -> monotone AsBuilt (pre ++ mid' ++ post) ->
  address AsBuilt pre (List.length pre) = Some a ->
  address AsBuilt (pre ++ mid) (List.length (pre ++ mid)) = Some b -> address AsBuilt (pre ++ mid') (List.length (pre ++ mid')) = Some b ->
  labels AsBuilt (pre ++ mid) = Some e -> labels AsBuilt (pre ++ mid') = Some e' -> (forall n, lookup e' n = lookup e n) ->
  gaia file src = Ret o -> exit_code o = 0 -> gaia file src' = Ret o' -> exit_code o' = 0 ->
  forall x, 0 <= x -> x < a \/ b <= x -> memory_of (binary o') x = memory_of (binary o) x.
Proof.
  intros file src src' pre mid mid' post a b e e' o o' M M' B B' N0 N1 N2 Mo Mo' Ha Hb Hb' He He' Ee G X G' X' x Hx Out.
  assert (N01 : ~ In SEnd (pre ++ mid)) by (intro K; apply in_app_or in K; tauto).
  assert (N02 : ~ In SEnd (pre ++ mid')) by (intro K; apply in_app_or in K; tauto).
  unfold address in Ha, Hb, Hb'. rewrite body_id, firstn_all in Ha by exact N0. rewrite body_id, firstn_all in Hb by exact N01.
  rewrite body_id, firstn_all in Hb' by exact N02. unfold labels in He, He'.
  destruct (pass1_program AsBuilt pre) as [f0|] eqn:E0; [|discriminate]. injection Ha as Ha.
  destruct (pass1_program AsBuilt (pre ++ mid)) as [f1|] eqn:E1; [|discriminate]. injection Hb as Hb. injection He as He.
  destruct (pass1_program AsBuilt (pre ++ mid')) as [f2|] eqn:E2; [|discriminate]. injection Hb' as Hb'. injection He' as He'. subst e e'.
  destruct (success file src _ o M B G X) as (f & c & U & V & _ & Im). specialize (Im Mo).
  destruct (success file src' _ o' M' B' G' X') as (f' & c' & U' & V' & _ & Im'). specialize (Im' Mo').
  pose proof (program_16 _ _ M) as S16. pose proof (program_16 _ _ M') as S16'.
  rewrite app_assoc in S16, S16', Mo, Mo', U, U'.
  apply Forall_app in S16. destruct S16 as [S1 S2]. apply Forall_app in S16'. destruct S16' as [S1' _].
  pose proof (monotone_front _ _ _ Mo) as Mf. pose proof (monotone_front _ _ _ Mo') as Mf'.
  pose proof (monotone_back _ _ _ _ N01 E1 Mo) as Mb.
  unfold pass1_program in *. rewrite pass1_app, E1 in U by exact N01. rewrite pass1_app, E2 in U' by exact N02.
  destruct (behind post f1 f2 f f' ltac:(congruence) Ee U U') as (Ef & its & I1 & I2).
  (* the addresses *)
  apply Forall_app in S1. destruct S1 as [Sp Sm]. apply Forall_app in S1'. destruct S1' as [_ Sm'].
  destruct (pass1_ascend pre (mkP1 0 [] []) _ Sp N0 (Z.le_refl 0) (monotone_front _ _ _ Mf) E0) as (A0 & i0 & P0 & _ & _).
  pose proof (monotone_back _ _ _ _ N0 E0 Mf) as Mm. pose proof (monotone_back _ _ _ _ N0 E0 Mf') as Mm'.
  rewrite pass1_app, E0 in E1 by exact N0. rewrite pass1_app, E0 in E2 by exact N0.
  destruct (pass1_ascend mid f0 f1 Sm N1 A0 Mm E1) as (A1 & i1 & P1 & Q1 & R1).
  destruct (pass1_ascend mid' f0 f2 Sm' N2 A0 Mm' E2) as (_ & i2 & P2 & Q2 & R2).
  rewrite I1, P1, <- app_assoc, !pass2_app in V. rewrite I2, P2, <- app_assoc, !pass2_app in V'.
  rewrite (pass2_alike (p1_env f) (p1_env f')) in V' by exact Ef.
  rewrite (pass2_alike (p1_env f) (p1_env f') its Ef) in V'.
  destruct (pass2 AsBuilt (p1_env f) (p1_items f0)) as [c0|]; [|discriminate].
  destruct (pass2 AsBuilt (p1_env f) i1) as [c1|] eqn:K1; [|discriminate].
  destruct (pass2 AsBuilt (p1_env f) its) as [c2|]; [|discriminate]. injection V as <-.
  destruct (pass2 AsBuilt (p1_env f') i2) as [c1'|] eqn:K2; [|discriminate]. injection V' as <-.
  destruct (pass2_pieces _ _ _ _ _ Q1 R1 K1 A0) as (_ & _ & W1). destruct (pass2_pieces _ _ _ _ _ Q2 R2 K2 A0) as (_ & _ & W2).
  rewrite (image_memory _ _ x Im Hx), (image_memory _ _ x Im' Hx), !byte_at_app.
  rewrite (byte_at_none c1), (byte_at_none c1'); [reflexivity| |].
  - intros y bs K. apply W2 in K. lia.
  - intros y bs K. apply W1 in K. lia.
Qed.

Example C82_case : exists file src src' pre mid mid' post e e' o o',
  program_means src (pre ++ mid ++ post) /\ program_means src' (pre ++ mid' ++ post) /\ small src /\ small src' /\
  ~ In SEnd pre /\ ~ In SEnd mid /\ ~ In SEnd mid' /\
  monotone AsBuilt (pre ++ mid ++ post) /\ monotone AsBuilt (pre ++ mid' ++ post) /\
  address AsBuilt pre (List.length pre) = Some 2 /\
  address AsBuilt (pre ++ mid) (List.length (pre ++ mid)) = Some 5 /\ address AsBuilt (pre ++ mid') (List.length (pre ++ mid')) = Some 5 /\
  labels AsBuilt (pre ++ mid) = Some e /\ labels AsBuilt (pre ++ mid') = Some e' /\ (forall n, lookup e' n = lookup e n) /\
  gaia file src = Ret o /\ exit_code o = 0 /\ gaia file src' = Ret o' /\ exit_code o' = 0 /\
  binary o = [240; 3; 76; 5; 0; 96] /\ binary o' = [240; 3; 234; 208; 253; 96].
Proof.
  set (l0 := [T " beq OUT"]). set (l1 := [T "IN jmp OUT"]). set (l2 := [T "IN nop"; T " bne IN"]). set (l3 := [T "OUT rts"]).
  destruct (statements l0) as [pre|] eqn:E0; [|vm_compute in E0; discriminate].
  destruct (statements l1) as [mid|] eqn:E1; [|vm_compute in E1; discriminate].
  destruct (statements l2) as [mid'|] eqn:E2; [|vm_compute in E2; discriminate].
  destruct (statements l3) as [post|] eqn:E3; [|vm_compute in E3; discriminate].
  exists (T "a.asm"), (join (l0 ++ l1 ++ l3)), (join (l0 ++ l2 ++ l3)), pre, mid, mid', post, [(T "IN", 2)], [(T "IN", 2)].
  vm_compute in E0, E1, E2, E3. injection E0 as <-. injection E1 as <-. injection E2 as <-. injection E3 as <-.
  do 2 eexists. do 2 (split; [apply means_lines; vm_compute; reflexivity|]). do 2 (split; [vm_compute; reflexivity|]).
  do 3 (split; [intro K; repeat destruct K as [K|K]; (discriminate || exact K)|]).
  do 2 (split; [vm_compute; repeat split; discriminate|]). do 5 (split; [vm_compute; reflexivity|]). split; [reflexivity|].
  do 5 (split; [vm_compute; reflexivity|]). reflexivity.
Qed.
