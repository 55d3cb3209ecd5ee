(** Prop_Explicit.v -- C91: a program may state its addresses. *)
From Verif Require Import Base Proof_Base Model_Main Spec_Isa Spec_Text Spec_Asm Spec_Diag Spec_Prog Spec_Report Spec_Edit
  Proof_Prog Proof_Check Proof_Rewrite Prop_Program Prop_Edit.

Lemma diag_reached : forall x y pre n n' st st', deq nobody st st' ->
  (forall k k' s s', accepts AsBuilt n st pre = Some s -> deq nobody s s' -> dsame (diag_from AsBuilt k s x) (diag_from AsBuilt k' s' y)) ->
  dsame (diag_from AsBuilt n st (pre ++ x)) (diag_from AsBuilt n' st' (pre ++ y)).
Proof.
  intros x y. induction pre as [|s pre IH]; intros n n' st st' Q H; [apply H; [reflexivity|exact Q]|].
  pose proof (avoids_nobody [s]) as A. inversion A as [|? ? A1 _]; subst. pose proof (stmt_eq nobody n n' st st' s Q A1) as S.
  cbn [app diag_from accepts] in *. destruct s; try (apply (close_eq nobody); exact Q);
  destruct (diag_stmt AsBuilt n st _) as [s1|[m1 w1]], (diag_stmt AsBuilt n' st' _) as [s2|[m2 w2]]; cbn in S; try contradiction;
    try (apply IH; [exact S|exact H]); injection S as <- <-; reflexivity.
Qed.

Lemma reached_address : forall pre st a, state_after AsBuilt pre = Some st -> address AsBuilt pre (List.length pre) = Some a -> d_addr st = a.
Proof.
  intros pre st a H A. destruct (state_after_pass1 _ _ _ H) as (P & _ & N). unfold address in A. rewrite body_id, firstn_all, P in A by exact N.
  injection A as <-. reflexivity.
Qed.

Lemma same_count : forall pre x y, count defines_label (body x) = count defines_label (body y) ->
  count defines_label (body (pre ++ y)) = count defines_label (body (pre ++ x)) + 0.
Proof.
  intros pre x y H. destruct (in_dec (fun a b : stmt => ltac:(repeat decide equality)) SEnd pre) as [K|K].
  - rewrite !body_stop by exact K. lia.
  - rewrite !body_app, !count_app by exact K. lia.
Qed.

(** an origin that is the current address *)
Theorem C91_origin : forall file src src' pre post a, address AsBuilt pre (List.length pre) = Some a ->
  program_means src (pre ++ post) -> program_means src' (pre ++ SOrg a :: post) -> small src -> small src' ->
  same_code file 0 (gaia file src) (gaia file src').
Proof.
  intros file src src' pre post a A M M' B B'. eapply dsame_code; eauto; [|apply same_count; reflexivity].
  apply diag_reached; [apply deq_init|]. intros k k' s s' R Q. pose proof (reached_address _ _ _ R A) as E.
  cbn [diag_from diag_stmt]. apply diag_rest with (X := nobody); [apply avoids_nobody|]. destruct Q as [QA QE QD QP]. constructor; cbn; auto.
Qed.

(** a label, as a constant *)
Theorem C91_constant : forall file src src' pre post n a, address AsBuilt pre (List.length pre) = Some a ->
  program_means src (pre ++ SLabel n :: post) -> program_means src' (pre ++ SConst n a :: post) -> small src -> small src' ->
  same_code file 0 (gaia file src) (gaia file src').
Proof.
  intros file src src' pre post n a A M M' B B'. eapply dsame_code; eauto; [|apply same_count; cbn [body]; rewrite !count_cons; reflexivity].
  apply diag_reached; [apply deq_init|]. intros k k' s s' R Q. pose proof (reached_address _ _ _ R A) as E.
  cbn [diag_from diag_stmt]. rewrite (q_env _ _ _ Q n) by (intros []). destruct (lookup (d_env s') n); [reflexivity|].
  rewrite E. apply diag_rest with (X := nobody); [apply avoids_nobody|apply define_eq; exact Q].
Qed.

(** an origin behind which nothing is assembled *)
Definition places_nothing (s : stmt) : bool := match s with SEmpty | SConst _ _ | SOrg _ => true | _ => false end.

Lemma quiet_rest : forall post, forallb places_nothing (body post) = true -> forall n n' st st',
  deq nobody (mkD 0 (d_env st) (d_done st)) (mkD 0 (d_env st') (d_done st')) ->
  dsame (diag_from AsBuilt n st post) (diag_from AsBuilt n' st' post).
Proof.
  assert (Cl : forall st st', deq nobody (mkD 0 (d_env st) (d_done st)) (mkD 0 (d_env st') (d_done st')) ->
    dsame (d_close AsBuilt st) (d_close AsBuilt st')).
  { intros st st' Q. pose proof (close_eq nobody _ _ Q) as C. unfold d_close in *. cbn [d_env d_done] in C.
    destruct (complete AsBuilt (d_env st) (d_done st)) as [c|[k m]], (complete AsBuilt (d_env st') (d_done st')) as [c'|[k' m']]; exact C. }
  induction post as [|s post IH]; intros H n n' st st' Q; [apply Cl; exact Q|].
  destruct s as [|l|l v|v| |lab m o]; cbn [body forallb places_nothing andb] in H; try discriminate H; cbn [diag_from diag_stmt].
  - apply IH; assumption.
  - pose proof (q_env _ _ _ Q l) as El. cbn [d_env] in El. rewrite El by (intros []). destruct (lookup (d_env st') l); [reflexivity|]. apply IH; [exact H|].
    exact (define_eq nobody _ _ l v Q).
  - apply IH; [exact H|exact Q].
  - apply Cl. exact Q.
Qed.

Theorem C91_last_origin : forall file src src' pre post a, forallb places_nothing (body post) = true ->
  program_means src (pre ++ post) -> program_means src' (pre ++ SOrg a :: post) -> small src -> small src' ->
  same_code file 0 (gaia file src) (gaia file src').
Proof.
  intros file src src' pre post a H M M' B B'. eapply dsame_code; eauto; [|apply same_count; reflexivity].
  apply diag_reached; [apply deq_init|]. intros k k' s s' R Q. cbn [diag_from diag_stmt]. apply quiet_rest; [exact H|].
  destruct Q as [QA QE QD QP]. constructor; cbn; auto.
Qed.

Example C91_case : exists file src src1 src2 src3 pre l post q tail o o1 o2 o3,
  address AsBuilt pre (List.length pre) = Some 3 /\ forallb places_nothing (body tail) = true /\ post = q ++ tail /\
  program_means src (pre ++ SLabel l :: post) /\ program_means src1 (pre ++ SOrg 3 :: SLabel l :: post) /\
  program_means src2 (pre ++ SConst l 3 :: post) /\ program_means src3 ((pre ++ SLabel l :: q) ++ SOrg 100 :: tail) /\
  small src /\ small src1 /\ small src2 /\ small src3 /\
  gaia file src = Ret o /\ gaia file src1 = Ret o1 /\ gaia file src2 = Ret o2 /\ gaia file src3 = Ret o3 /\
  exit_code o = 0 /\ binary o = [76; 5; 0; 240; 254; 96] /\
  binary o1 = binary o /\ binary o2 = binary o /\ binary o3 = binary o.
Proof.
  set (l0 := [T " jmp M"]). set (l1 := [T "L"]). set (l2 := [T " beq L"; T "M rts"]). set (l3 := [T "C = 7"; T ".end"]).
  destruct (statements l0) as [pre|] eqn:E0; [|vm_compute in E0; discriminate].
  destruct (statements l2) as [q|] eqn:E2; [|vm_compute in E2; discriminate].
  destruct (statements l3) as [tail|] eqn:E3; [|vm_compute in E3; discriminate].
  exists (T "a.asm"), (join (l0 ++ l1 ++ l2 ++ l3)), (join (l0 ++ [T ".org 3"] ++ l1 ++ l2 ++ l3)), (join (l0 ++ [T "L = 3"] ++ l2 ++ l3)),
    (join (l0 ++ l1 ++ l2 ++ [T ".org 100"] ++ l3)), pre, (T "L"), (q ++ tail), q, tail.
  vm_compute in E0, E2, E3. injection E0 as <-. injection E2 as <-. injection E3 as <-.
  do 4 eexists. do 2 (split; [vm_compute; reflexivity|]). split; [reflexivity|].
  do 4 (split; [apply means_lines; vm_compute; reflexivity|]). do 4 (split; [vm_compute; reflexivity|]).
  do 8 (split; [vm_compute; reflexivity|]). vm_compute; reflexivity.
Qed.
