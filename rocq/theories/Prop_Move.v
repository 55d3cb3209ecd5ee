(** Prop_Move.v -- C57 constants can be defined earlier, C58 a program can be moved to another address, C59 code added at
    the end leaves the code in front of it alone. *)
From Verif Require Import Base Proof_Base Model_Main Spec_Isa Spec_Text Spec_Asm Spec_Diag Spec_Prog Spec_Report Spec_Edit
  Proof_Core Proof_Modes Proof_Diag Proof_Ref Proof_Sim2 Proof_Image Proof_Kept Proof_Prog Proof_Check Proof_Place Proof_Rewrite Proof_Reloc
  Prop_Program Prop_Edit.

(** a successful assembly *)
Lemma success : forall file src p o, program_means src p -> small src -> gaia file src = Ret o -> exit_code o = 0 ->
  exists fin code, pass1_program AsBuilt p = Some fin /\ pass2 AsBuilt (p1_env fin) (p1_items fin) = Some code /\
    SuccessReport (code_size code) (count defines_label (body p)) (stdout o) /\ (monotone AsBuilt p -> is_image code (binary o)).
Proof.
  intros file src p o M B G X. destruct (C35_summary file src p o M B G X) as (code & R & S).
  destruct (C26_as_built file src p M B) as (o1 & G1 & _ & I). rewrite G in G1. injection G1 as <-.
  pose proof R as R'. unfold reference in R'. destruct (pass1_program AsBuilt p) as [fin|] eqn:E; [|discriminate].
  exists fin, code. auto.
Qed.

Lemma succeeds : forall file src p fin code, program_means src p -> small src -> pass1_program AsBuilt p = Some fin ->
  pass2 AsBuilt (p1_env fin) (p1_items fin) = Some code ->
  exists o, gaia file src = Ret o /\ exit_code o = 0 /\
    SuccessReport (code_size code) (count defines_label (body p)) (stdout o) /\ (monotone AsBuilt p -> is_image code (binary o)).
Proof.
  intros file src p fin code M B E1 E2. assert (R : reference AsBuilt p = Some code) by (unfold reference; rewrite E1; exact E2).
  destruct (C26_as_built file src p M B) as (o & G & X & I). exists o. split; [exact G|].
  assert (X0 : exit_code o = 0) by (apply X; eauto). split; [exact X0|].
  destruct (C35_summary file src p o M B G X0) as (code' & R' & S). rewrite R in R'. injection R' as <-. auto.
Qed.

(** ** C59 *)
Lemma monotone_front : forall q p st, monotone_from AsBuilt st (p ++ q) -> monotone_from AsBuilt st p.
Proof.
  intros q. induction p as [|s p IH]; intros st H; [exact I|]. cbn [app monotone_from] in *.
  destruct s; auto; destruct H as [H1 H2]; (split; [exact H1|]); destruct (pass1_stmt AsBuilt st _); auto.
Qed.

Lemma monotone_back : forall q p st st1, ~ In SEnd p -> pass1 AsBuilt st p = Some st1 -> monotone_from AsBuilt st (p ++ q) -> monotone_from AsBuilt st1 q.
Proof.
  intros q. induction p as [|s p IH]; intros st st1 N E H; [injection E as <-; exact H|].
  assert (Ns : s <> SEnd) by (intros ->; apply N; left; reflexivity). rewrite pass1_cons in E by exact Ns.
  destruct (pass1_stmt AsBuilt st s) as [st2|] eqn:E1; [|discriminate]. apply (IH st2 st1); [intro K; apply N; right; exact K|exact E|].
  cbn [app monotone_from] in H. rewrite E1 in H. destruct s; (congruence || apply H).
Qed.

Lemma monotone_body : forall p st, monotone_from AsBuilt st p -> monotone_from AsBuilt st (body p).
Proof.
  induction p as [|s p IH]; intros st H; [exact I|]. cbn [body monotone_from] in *.
  destruct s; cbn [monotone_from]; auto; destruct H as [H1 H2]; (split; [exact H1|]); destruct (pass1_stmt AsBuilt st _); auto.
Qed.

Lemma image_app : forall c c' f f', is_image c f -> is_image (c ++ c') f' ->
  (forall p bs, In (p, bs) c' -> image_end c <= p) -> exists rest, f' = f ++ rest.
Proof.
  intros c c' f f' [L A] [L' A'] H.
  assert (E : image_end c <= image_end (c ++ c')).
  { clear. induction c as [|[p bs] c IH]; cbn; [|lia]. induction c' as [|[p bs] c' IH]; cbn; lia. }
  exists (skipn (List.length f) f'). rewrite <- (firstn_skipn (List.length f) f') at 1. f_equal.
  apply nth_ext with (d := 0) (d' := 0); [rewrite firstn_length; lia|]. intros n Hn. rewrite firstn_length in Hn.
  specialize (A (Z.of_nat n)). specialize (A' (Z.of_nat n)). rewrite Nat2Z.id in *. rewrite byte_at_app in A'.
  rewrite byte_at_none in A'. 2:{ intros p bs K. specialize (H _ _ K). lia. }
  assert (B : nth_error f' n = nth_error f n) by (rewrite A, A' by lia; reflexivity).
  rewrite !(nth_error_nth' _ 0) in B by lia. injection B as B. rewrite <- B.
  rewrite <- (firstn_skipn (List.length f) f') at 2. rewrite app_nth1 by (rewrite firstn_length; lia). reflexivity.
Qed.

Theorem C59_append : forall file src src' p q o o', program_means src p -> program_means src' (p ++ q) -> small src -> small src' ->
  monotone AsBuilt (p ++ q) -> gaia file src = Ret o -> exit_code o = 0 -> gaia file src' = Ret o' -> exit_code o' = 0 ->
  exists rest, binary o' = binary o ++ rest.
Proof.
  intros file src src' p q o o' M M' B B' Mo G X G' X'.
  destruct (success file src p o M B G X) as (fin & code & E & P & _ & Im).
  destruct (success file src' _ o' M' B' G' X') as (fin' & code' & E' & P' & _ & Im').
  specialize (Im (monotone_front _ _ _ Mo)). specialize (Im' Mo).
  destruct (in_dec (fun a b : stmt => ltac:(repeat decide equality)) SEnd p) as [K|K].
  { unfold pass1_program in *. rewrite pass1_body in E, E'. rewrite body_stop, E in E' by exact K. injection E' as <-.
    rewrite P in P'. injection P' as <-. exists []. rewrite app_nil_r. exact (image_unique _ _ _ Im' Im). }
  unfold pass1_program in *. rewrite pass1_app, E in E' by exact K.
  pose proof (program_16 _ _ M') as S16. apply Forall_app in S16. destruct S16 as [S1 S2].
  destruct (pass1_ascend p (mkP1 0 [] []) _ S1 K (Z.le_refl 0) (monotone_front _ _ _ Mo) E) as (A0 & its & I1 & I2 & I3). cbn [p1_items app] in I1.
  pose proof (monotone_back _ _ _ _ K E Mo) as Mq.
  rewrite pass1_body in E'. apply monotone_body in Mq.
  assert (S3 : Forall stmt16 (body q)).
  { clear - S2. induction S2 as [|s q H F IH]; [constructor|]. destruct s; cbn [body]; constructor; auto. }
  destruct (pass1_ascend (body q) _ _ S3 (body_no_end q) A0 Mq E') as (A1 & its' & J1 & J2 & J3).
  destruct (pass1_extends _ _ _ _ E') as [_ Ex].
  rewrite J1, pass2_app in P'. rewrite (pass2_extends _ _ _ _ _ Ex P) in P'.
  destruct (pass2 AsBuilt (p1_env fin') its') as [cq|] eqn:Q; [|discriminate]. injection P' as <-.
  rewrite I1 in P. cbn [p1_addr] in I3. destruct (pass2_pieces _ _ _ _ _ I2 I3 P ltac:(lia)) as (C1 & C2 & _).
  destruct (pass2_pieces _ _ _ _ _ J2 J3 Q A0) as (_ & _ & C3).
  eapply image_app; eauto. intros x bs Hx. destruct (C3 _ _ Hx). lia.
Qed.

Example C59_case : exists file src src' p q o o', program_means src p /\ program_means src' (p ++ q) /\ small src /\ small src' /\
  monotone AsBuilt (p ++ q) /\ gaia file src = Ret o /\ exit_code o = 0 /\ gaia file src' = Ret o' /\ exit_code o' = 0 /\
  binary o = [240; 1; 234; 234] /\ binary o' = [240; 1; 234; 234; 0; 76; 0; 0].
Proof.
  set (l1 := [T "S beq L"; T " nop"; T "L nop"]). set (l2 := l1 ++ [T ".org 5"; T " jmp S"]).
  destruct (statements l1) as [p|] eqn:E1; [|vm_compute in E1; discriminate].
  destruct (statements [T ".org 5"; T " jmp S"]) as [q|] eqn:E2; [|vm_compute in E2; discriminate].
  exists (T "a.asm"), (join l1), (join l2), p, q. vm_compute in E1, E2. injection E1 as <-. injection E2 as <-.
  do 2 eexists. split; [apply means_lines; vm_compute; reflexivity|]. split; [apply means_lines; vm_compute; reflexivity|].
  do 2 (split; [vm_compute; reflexivity|]). split; [vm_compute; repeat split; discriminate|].
  do 5 (split; [vm_compute; reflexivity|]). reflexivity.
Qed.

(** ** C58 *)
Lemma no_org_monotone : forall p st, (forall v, ~ In (SOrg v) p) -> monotone_from AsBuilt st p.
Proof.
  induction p as [|s p IH]; intros st H; [exact I|].
  assert (H' : forall v, ~ In (SOrg v) p) by (intros v K; apply (H v); right; exact K).
  cbn [monotone_from]. destruct s; auto; try (split; [exact I|]; destruct (pass1_stmt AsBuilt st _); auto).
  destruct (H v). left; reflexivity.
Qed.

Lemma relocated_size : forall e F d is c c', relocated e F d is c c' -> code_size c' = code_size c.
Proof. induction 1; cbn [code_size fold_right snd] in *; unfold code_size in *; cbn [List.length] in *; lia. Qed.

Theorem C58_relocate : forall file src src' p a b o, program_means src (SOrg a :: p) -> program_means src' (SOrg b :: p) ->
  movable p a b -> small src -> small src' -> gaia file src = Ret o -> exit_code o = 0 ->
  exists o' e code code', gaia file src' = Ret o' /\ exit_code o' = 0 /\ stdout o' = stdout o /\
    labels AsBuilt (SOrg a :: p) = Some e /\ reference AsBuilt (SOrg a :: p) = Some code /\
    relocated e (constant p) (b - a) (instructions p) code code' /\
    is_image code (binary o) /\ is_image code' (binary o').
Proof.
  intros file src src' p a b o M M' Mv B B' G X.
  destruct (success file src _ o M B G X) as (fin & code & E & P & S & Im).
  assert (Aa : 0 <= a) by (pose proof (program_16 _ _ M) as S16; inversion S16; subst; cbn in *; lia).
  assert (Ab : 0 <= b) by (pose proof (program_16 _ _ M') as S16; inversion S16; subst; cbn in *; lia).
  assert (Mo : forall x, 0 <= x -> monotone AsBuilt (SOrg x :: p)).
  { intros x Hx. split; [exact Hx|]. cbn. apply no_org_monotone. apply Mv. }
  pose proof E as E0. unfold pass1_program in E. cbn [pass1 pass1_stmt p1_env p1_items] in E. rewrite pass1_body in E.
  destruct (pass1_move p a b Mv (body p) (mkP1 a [] []) (mkP1 b [] []) fin) as (fin' & E' & R); auto.
  { apply body_no_end. }
  { intros s n Is Ds (v & Cn). exists v. eapply (defined_once AsBuilt (body p)); eauto. apply body_no_end. }
  { constructor; cbn [p1_addr p1_env p1_items]; [lia|lia|intro n; exact I|constructor]. }
  destruct (pass2_move p a b _ _ _ _ code (m_env _ _ _ _ _ R) (m_items _ _ _ _ _ R) P) as (code' & P' & Rl).
  rewrite (pass1_instructions _ _ _ (body_no_end p) E) in Rl. cbn [p1_items map app] in Rl.
  assert (Ib : instructions (body p) = instructions p) by (unfold instructions; rewrite (body_id (body p)) by apply body_no_end; reflexivity).
  rewrite Ib in Rl.
  destruct (succeeds file src' (SOrg b :: p) fin' code') as (o' & G' & X' & S' & Im'); auto.
  { unfold pass1_program. cbn [pass1 pass1_stmt p1_env p1_items]. rewrite pass1_body. exact E'. }
  exists o', (p1_env fin), code, code'. split; [exact G'|]. split; [exact X'|]. split.
  { rewrite (relocated_size _ _ _ _ _ _ Rl) in S'. unfold SuccessReport in *. cbn [body] in *. unfold count in *. cbn [filter defines_label defines] in *. congruence. }
  split; [unfold labels; rewrite E0; reflexivity|]. split; [unfold reference; rewrite E0; exact P|]. split; [exact Rl|]. split; auto.
Qed.

(** branches only: the same bytes at another place *)
Lemma relocated_shift : forall e F d is c c', relocated e F d is c c' ->
  (forall m n, In (m, Some (Lab n)) is -> is_branch_name m = false -> F n) -> c' = map (fun '(p, bs) => (p + d, bs)) c.
Proof.
  induction 1 as [|m x a bs is c c' H R IH|m n v a op is c c' H H0 H1 R IH]; intro K; cbn [map]; [reflexivity| |].
  - rewrite IH; [reflexivity|]. intros m0 n0 I0. apply K. right; exact I0.
  - destruct H0. apply (K m n); [left; reflexivity|exact H].
Qed.

Lemma byte_at_shift : forall d c x, byte_at (map (fun '(p, bs) => (p + d, bs)) c) (x + d) = byte_at c x.
Proof.
  intros d. induction c as [|[p bs] c IH]; intro x; cbn [map byte_at]; [reflexivity|]. rewrite IH.
  destruct (byte_at c x); [reflexivity|].
  replace ((p + d <=? x + d) && (x + d <? p + d + Z.of_nat (List.length bs))) with ((p <=? x) && (x <? p + Z.of_nat (List.length bs))) by lia.
  replace (x + d - (p + d)) with (x - p) by lia. reflexivity.
Qed.

Lemma image_end_shift : forall d c, c <> [] -> (forall p bs, In (p, bs) c -> 0 <= p /\ 0 <= p + d) ->
  image_end (map (fun '(p, bs) => (p + d, bs)) c) = image_end c + d.
Proof.
  intros d c. induction c as [|[p bs] c IH]; intros N H; [congruence|]. cbn [map image_end].
  destruct c as [|q c]; [cbn; destruct (H p bs (or_introl eq_refl)); lia|].
  rewrite IH; [lia|discriminate|]. intros p' bs' K. apply (H p' bs'). right; exact K.
Qed.

Lemma nth_skipn : forall (l : list Z) n i, nth i (skipn n l) 0 = nth (n + i) l 0.
Proof. induction l as [|x l IH]; intros [|n] i; cbn; auto; destruct i; reflexivity. Qed.
Lemma nth_error_some_eq : forall (l l' : list Z) i j, nth_error l i = nth_error l' j -> nth i l 0 = nth j l' 0.
Proof. intros l l' i j H. rewrite !nth_default_eq || idtac. rewrite <- !nth_default_eq. unfold nth_default. rewrite H. reflexivity. Qed.

Theorem C58_position_independent : forall file src src' p a b o, program_means src (SOrg a :: p) -> program_means src' (SOrg b :: p) ->
  (forall v, ~ In (SOrg v) p) ->
  (forall lab m o n, In (SInstr lab m o) (body p) -> operand_expr o = Some (Lab n) -> (is_branch_name m = true <-> ~ constant p n)) ->
  small src -> small src' -> gaia file src = Ret o -> exit_code o = 0 ->
  exists o', gaia file src' = Ret o' /\ exit_code o' = 0 /\ stdout o' = stdout o /\
    skipn (Z.to_nat a) (binary o) = skipn (Z.to_nat b) (binary o').
Proof.
  intros file src src' p a b o M M' NO H B B' G X.
  assert (K : forall lab m o n, In (SInstr lab m o) (body p) -> operand_expr o = Some (Lab n) -> if is_branch_name m then ~ constant p n else constant p n).
  { intros lab m o0 n I0 O0. specialize (H _ _ _ _ I0 O0). destruct (is_branch_name m); [apply H; reflexivity|].
    destruct (constant_dec p n) as [C|C]; [exact C|]. apply H in C. discriminate. }
  assert (Mv : movable p a b).
  { split; [exact NO|]. intros lab m o0 n I0 O0. specialize (K _ _ _ _ I0 O0). destruct (is_branch_name m); [exact K|auto]. }
  destruct (C58_relocate file src src' p a b o M M' Mv B B' G X) as (o' & e & code & code' & G' & X' & S & L & Rf & R & [I1 I2] & [J1 J2]).
  exists o'. do 3 (split; [assumption|]).
  assert (Sh : code' = map (fun '(q, bs) => (q + (b - a), bs)) code).
  { eapply relocated_shift; eauto. intros m n In_ Br. unfold instructions in In_. apply in_concat in In_. destruct In_ as (l & Hl & Hn).
    apply in_map_iff in Hl. destruct Hl as (s & <- & Hs). destruct s as [| | | | |lab m0 o0]; try (exfalso; exact Hn).
    destruct Hn as [Hn|[]]. injection Hn as -> Ho. specialize (K _ _ _ _ Hs Ho). rewrite Br in K. exact K. }
  assert (Aa : 0 <= a) by (pose proof (program_16 _ _ M) as S16; inversion S16; subst; cbn in *; lia).
  assert (Ab : 0 <= b) by (pose proof (program_16 _ _ M') as S16; inversion S16; subst; cbn in *; lia).
  assert (Lo : forall q bs, In (q, bs) code -> a <= q).
  { destruct (success file src _ o M B G X) as (fin & code1 & E & P & _ & Im).
    assert (Mo : monotone AsBuilt (SOrg a :: p)) by (split; [exact Aa|cbn; apply no_org_monotone; exact NO]).
    unfold labels in L. rewrite E in L. cbn in L. injection L as <-.
    unfold pass1_program in E. cbn [pass1 pass1_stmt p1_env p1_items] in E. rewrite pass1_body in E.
    pose proof (program_16 _ _ M) as S16. inversion S16 as [|? ? _ S16']; subst.
    assert (S3 : Forall stmt16 (body p)) by (clear - S16'; induction S16' as [|s q H F IH]; [constructor|]; destruct s; cbn [body]; constructor; auto).
    assert (NO' : forall v, ~ In (SOrg v) (body p)).
    { intros v I0. apply (NO v). revert I0. clear. induction p as [|s l IH]; cbn [body]; [tauto|]. destruct s; cbn; try tauto; intros [Q|Q]; try discriminate; auto. }
    destruct (pass1_ascend (body p) (mkP1 a [] []) fin S3 (body_no_end p) Aa (no_org_monotone _ _ NO') E) as (A0 & its & T1 & T2 & T3).
    cbn [p1_items app p1_addr] in T1, T3. rewrite T1 in P. destruct (pass2_pieces _ _ _ _ _ T2 T3 P Aa) as (_ & _ & T4).
    intros q bs Hq. assert (code1 = code) as <-; [|apply (T4 _ _ Hq)].
    unfold reference in Rf. destruct (pass1_program AsBuilt (SOrg a :: p)) as [f1|] eqn:Ef; [|discriminate].
    unfold pass1_program in Ef. cbn [pass1 pass1_stmt p1_env p1_items] in Ef. rewrite pass1_body, E in Ef. injection Ef as <-. rewrite T1 in Rf. congruence. }
  destruct code as [|w code].
  { cbn in Sh. subst code'. cbn in I1, J1. destruct (binary o); [|discriminate]. destruct (binary o'); [|discriminate]. rewrite !skipn_nil. reflexivity. }
  set (cd := w :: code) in *.
  assert (En : image_end code' = image_end cd + (b - a)).
  { rewrite Sh. apply image_end_shift; [discriminate|]. intros q bs Hq. specialize (Lo _ _ Hq). lia. }
  apply nth_ext with (d := 0) (d' := 0); [rewrite !skipn_length; lia|]. intros i Hi. rewrite skipn_length in Hi.
  rewrite !nth_skipn. apply nth_error_some_eq.
  specialize (I2 (a + Z.of_nat i)). specialize (J2 (b + Z.of_nat i)). rewrite !Z2Nat.inj_add, Nat2Z.id in I2, J2 by lia.
  rewrite I2, J2 by lia. rewrite Sh. replace (b + Z.of_nat i) with (a + Z.of_nat i + (b - a)) by lia. rewrite byte_at_shift. reflexivity.
Qed.

Example C58_case : exists file src src' p o, program_means src (SOrg 512 :: p) /\ program_means src' (SOrg 1024 :: p) /\
  movable p 512 1024 /\ small src /\ small src' /\ gaia file src = Ret o /\ exit_code o = 0 /\
  skipn 512 (binary o) = [165; 5; 173; 0; 2; 208; 249; 76; 0; 2] /\
  exists o', gaia file src' = Ret o' /\ exit_code o' = 0 /\ skipn 1024 (binary o') = [165; 5; 173; 0; 4; 208; 249; 76; 0; 4].
Proof.
  set (l := [T "K = 5"; T "L lda K"; T " lda L"; T " bne L"; T " jmp L"]).
  destruct (statements l) as [p|] eqn:E; [|vm_compute in E; discriminate]. vm_compute in E. injection E as <-.
  eexists (T "a.asm"), (join (T ".org 512" :: l)), (join (T ".org 1024" :: l)), _, _.
  split; [apply means_lines; vm_compute; reflexivity|]. split; [apply means_lines; vm_compute; reflexivity|].
  split.
  { split; [intros v K; cbn in K; repeat destruct K as [K|K]; try discriminate; exact K|].
    intros lab m o n K O. cbn in K. repeat destruct K as [K|K]; try discriminate; try contradiction; injection K as <- <- <-; cbn in O; injection O as <-; cbn;
      try (right; right; lia); try (left; reflexivity).
    intros (v & K). cbn in K. repeat destruct K as [K|K]; try discriminate; exact K. }
  do 2 (split; [vm_compute; reflexivity|]). split; [vm_compute; reflexivity|]. split; [reflexivity|]. split; [reflexivity|].
  eexists. split; [vm_compute; reflexivity|]. split; reflexivity.
Qed.

Example C58_independent_case : exists file src src' p o, program_means src (SOrg 2 :: p) /\ program_means src' (SOrg 1024 :: p) /\
  (forall v, ~ In (SOrg v) p) /\
  (forall lab m o n, In (SInstr lab m o) (body p) -> operand_expr o = Some (Lab n) -> (is_branch_name m = true <-> ~ constant p n)) /\
  small src /\ small src' /\ gaia file src = Ret o /\ exit_code o = 0 /\ skipn 2 (binary o) = [165; 5; 208; 252].
Proof.
  set (l := [T "K = 5"; T "L lda K"; T " bne L"]).
  destruct (statements l) as [p|] eqn:E; [|vm_compute in E; discriminate]. vm_compute in E. injection E as <-.
  eexists (T "a.asm"), (join (T ".org 2" :: l)), (join (T ".org 1024" :: l)), _, _.
  split; [apply means_lines; vm_compute; reflexivity|]. split; [apply means_lines; vm_compute; reflexivity|].
  split; [intros v K; cbn in K; repeat destruct K as [K|K]; try discriminate; exact K|]. split.
  { intros lab m o n K O. cbn in K. repeat destruct K as [K|K]; try discriminate; try contradiction; injection K as <- <- <-; cbn in O; injection O as <-; cbn.
    - split; [discriminate|]. intro K. destruct K. exists 5. left. reflexivity.
    - split; [|reflexivity]. intros _ (v & K). cbn in K. repeat destruct K as [K|K]; try discriminate; exact K. }
  do 2 (split; [vm_compute; reflexivity|]). split; [vm_compute; reflexivity|]. split; reflexivity.
Qed.

(** ** C57 *)
Section Hoist.
Variables (n : text) (v : Z).

(** the second program knows the constant already *)
Record ahead (st st' : pass1_state) : Prop := {
  h_addr : p1_addr st' = p1_addr st;
  h_items : p1_items st' = p1_items st;
  h_new : lookup (p1_env st) n = None;
  h_env : forall k, lookup (p1_env st') k = if text_eqb n k then Some v else lookup (p1_env st) k }.

Definition plain_jump (s : stmt) : Prop :=
  forall lab o, s = SInstr lab "JMP" o -> operand_expr o = Some (Lab n) -> o = ODir (Lab n) \/ o = OInd (Lab n).

Lemma instr_ahead : forall lab m o st st' st1, plain_jump (SInstr lab m o) -> ahead st st' -> pass1_instr AsBuilt st m o = Some st1 ->
  exists st1', pass1_instr AsBuilt st' m o = Some st1' /\ ahead st1 st1'.
Proof.
  intros lab m o st st' st1 PJ [A I N E] H. unfold pass1_instr in *. fold (value_of (p1_env st) o) in H. fold (value_of (p1_env st') o).
  destruct (denoted_mode m o (value_of (p1_env st) o)) as [md|] eqn:D; [|discriminate].
  destruct (has_mode AsBuilt m md _) as [[op size]|] eqn:K; [|discriminate]. injection H as <-.
  assert (V : denoted_mode m o (value_of (p1_env st') o) = Some md /\
    has_mode AsBuilt m md (match value_of (p1_env st') o with Some _ => true | None => false end) = Some (op, size)).
  { unfold value_of in *. destruct (operand_expr o) as [[w|k]|] eqn:X; cbn [eval] in *; auto.
    rewrite E. destruct (text_eqb n k) eqn:Q; [|auto]. apply text_eqb_eq in Q. subst k. rewrite N in D, K. split.
    - destruct (denoted_unknown m o md _ X D) as [J|J]; unfold denoted_mode in *; [rewrite J in *; exact D|].
      destruct (is_branch_name m); [exact D|]. rewrite J in *. exact D.
    - destruct (has_mode_cases _ _ _ _ _ _ K) as [L|(_ & -> & _ & Md & _)].
      + unfold has_mode. rewrite L. reflexivity.
      + exfalso. destruct (PJ lab o eq_refl X) as [-> | ->]; cbn in D; injection D as <-; destruct Md; discriminate. }
  destruct V as [V1 V2]. rewrite V1, V2. eexists. split; [reflexivity|]. constructor; cbn [p1_addr p1_items p1_env]; auto; congruence.
Qed.

Lemma stmt_ahead : forall s st st' st1, plain_jump s -> defines s <> Some n -> ahead st st' -> pass1_stmt AsBuilt st s = Some st1 ->
  exists st1', pass1_stmt AsBuilt st' s = Some st1' /\ ahead st1 st1'.
Proof.
  intros s st st' st1 PJ Dn R H. pose proof R as [A I N E].
  assert (D : forall k w st2, k <> n -> define st k w = Some st2 -> exists st2', define st' k w = Some st2' /\ ahead st2 st2').
  { intros k w st2 Kn F. unfold define in *. destruct (lookup (p1_env st) k) eqn:L; [discriminate|]. injection F as <-.
    rewrite E. assert (text_eqb n k = false) as -> by (apply text_eqb_neq; congruence). rewrite L. eexists. split; [reflexivity|].
    constructor; cbn [p1_addr p1_items p1_env]; auto.
    - cbn [lookup]. assert (text_eqb k n = false) as -> by (apply text_eqb_neq; congruence). exact N.
    - intro j. cbn [lookup]. destruct (text_eqb k j) eqn:Q; [|apply E]. apply text_eqb_eq in Q. subst j.
      assert (text_eqb n k = false) as -> by (apply text_eqb_neq; congruence). reflexivity. }
  destruct s as [|k|k w|w| |[k|] m o]; cbn [pass1_stmt defines] in *.
  - injection H as <-. eauto.
  - rewrite A. apply D; [congruence|exact H].
  - apply D; [congruence|exact H].
  - injection H as <-. eexists. split; [reflexivity|]. constructor; cbn; auto.
  - injection H as <-. eauto.
  - destruct (define st k (p1_addr st)) as [st2|] eqn:F; [|discriminate]. rewrite A. destruct (D k (p1_addr st) st2) as (st2' & -> & R2); [congruence|exact F|].
    eapply (instr_ahead (Some k)); eauto.
  - eapply (instr_ahead None); eauto.
Qed.

Lemma pass1_ahead : forall p st st' st1, Forall plain_jump p -> (forall s, In s p -> defines s <> Some n) -> ~ In SEnd p -> ahead st st' ->
  pass1 AsBuilt st p = Some st1 -> exists st1', pass1 AsBuilt st' p = Some st1' /\ ahead st1 st1'.
Proof.
  induction p as [|s p IH]; intros st st' st1 F D N R H.
  - injection H as <-. exists st'. split; [reflexivity|exact R].
  - inversion F as [|? ? F1 F2]; subst. assert (Ns : s <> SEnd) by (intros ->; apply N; left; reflexivity). rewrite pass1_cons in * by exact Ns.
    destruct (pass1_stmt AsBuilt st s) as [st2|] eqn:E; [|discriminate].
    destruct (stmt_ahead s st st' st2) as (st2' & -> & R2); auto; [apply D; left; reflexivity|].
    eapply IH; eauto; [intros; apply D; right; assumption|intro K; apply N; right; exact K].
Qed.

Lemma monotone_ahead : forall x y, (forall st st', ahead st st' -> monotone_from AsBuilt st x -> monotone_from AsBuilt st' y) ->
  forall p st st', Forall plain_jump p -> (forall s, In s p -> defines s <> Some n) -> ~ In SEnd p -> (exists st1, pass1 AsBuilt st p = Some st1) -> ahead st st' ->
  monotone_from AsBuilt st (p ++ x) -> monotone_from AsBuilt st' (p ++ y).
Proof.
  intros x y H. induction p as [|s p IH]; intros st st' F D N (st1 & Ex) R M; [apply (H st st'); auto|].
  inversion F as [|? ? F1 F2]; subst. assert (Ns : s <> SEnd) by (intros ->; apply N; left; reflexivity). rewrite pass1_cons in Ex by exact Ns.
  destruct (pass1_stmt AsBuilt st s) as [st2|] eqn:E; [|discriminate].
  destruct (stmt_ahead s st st' st2) as (st2' & E' & R2); auto; [apply D; left; reflexivity|].
  assert (M2 : match s with SOrg w => p1_addr st' <= w | _ => True end /\ monotone_from AsBuilt st2 (p ++ x)).
  { rewrite (h_addr _ _ R). cbn [app monotone_from] in M. rewrite E in M. destruct s; (congruence || exact M). }
  assert (G : monotone_from AsBuilt st2' (p ++ y)).
  { eapply IH; eauto; [intros; apply D; right; assumption|intro K; apply N; right; exact K|apply M2]. }
  cbn [app monotone_from]. rewrite E'. destruct M2 as [M1 _]. destruct s; (congruence || (split; [exact M1|exact G])).
Qed.
End Hoist.

(** states with the same labels *)
Definition alike1 (st st' : pass1_state) : Prop :=
  p1_addr st' = p1_addr st /\ p1_items st' = p1_items st /\ forall k, lookup (p1_env st') k = lookup (p1_env st) k.

Lemma stmt_alike1 : forall s st st', alike1 st st' ->
  match pass1_stmt AsBuilt st s, pass1_stmt AsBuilt st' s with Some a, Some b => alike1 a b | None, None => True | _, _ => False end.
Proof.
  intros s st st' R. pose proof R as (A & I & E).
  assert (D : forall k w, match define st k w, define st' k w with Some a, Some b => alike1 a b | None, None => True | _, _ => False end).
  { intros k w. unfold define. rewrite E. destruct (lookup (p1_env st) k); [exact Logic.I|]. split; [exact A|]. split; [exact I|].
    intro j. cbn [p1_env lookup]. rewrite E. reflexivity. }
  assert (J : forall m o t t', alike1 t t' -> match pass1_instr AsBuilt t m o, pass1_instr AsBuilt t' m o with Some a, Some b => alike1 a b | None, None => True | _, _ => False end).
  { intros m o t t' (A1 & I1 & E1). unfold pass1_instr. fold (value_of (p1_env t) o). fold (value_of (p1_env t') o).
    assert (value_of (p1_env t') o = value_of (p1_env t) o) as -> by (unfold value_of; destruct (operand_expr o) as [[w|k]|]; cbn [eval]; auto).
    destruct (denoted_mode _ _ _); [|exact Logic.I]. destruct (has_mode _ _ _ _) as [[op size]|]; [|exact Logic.I].
    split; [cbn; congruence|]. split; [cbn; congruence|exact E1]. }
  destruct s as [|k|k w|w| |[k|] m o]; cbn [pass1_stmt]; try exact R.
  - rewrite A. apply D.
  - apply D.
  - split; [reflexivity|]. split; [exact I|exact E].
  - rewrite A. specialize (D k (p1_addr st)). destruct (define st k _), (define st' k _); try contradiction; [apply J; exact D|exact Logic.I].
  - apply J. exact R.
Qed.

Lemma pass1_alike1 : forall p st st' fin, alike1 st st' -> pass1 AsBuilt st p = Some fin -> exists fin', pass1 AsBuilt st' p = Some fin' /\ alike1 fin fin'.
Proof.
  induction p as [|s p IH]; intros st st' fin R H; [injection H as <-; exists st'; split; [reflexivity|exact R]|].
  cbn [pass1] in *. pose proof (stmt_alike1 s st st' R) as S. destruct s; try (injection H as <-; exists st'; split; [reflexivity|exact R]);
  destruct (pass1_stmt AsBuilt st _), (pass1_stmt AsBuilt st' _); try contradiction; try discriminate; eapply IH; eauto.
Qed.

Lemma monotone_alike1 : forall p st st', alike1 st st' -> monotone_from AsBuilt st p -> monotone_from AsBuilt st' p.
Proof.
  induction p as [|s p IH]; intros st st' R H; [exact I|]. pose proof R as (A & _ & _).
  cbn [monotone_from] in *. pose proof (stmt_alike1 s st st' R) as S. rewrite A. destruct s; auto; destruct H as [H1 H2]; (split; [exact H1|]);
  destruct (pass1_stmt AsBuilt st _), (pass1_stmt AsBuilt st' _); try contradiction; auto; eapply IH; eauto.
Qed.

Lemma pass2_alike : forall e e' its, (forall k, lookup e' k = lookup e k) -> pass2 AsBuilt e' its = pass2 AsBuilt e its.
Proof.
  intros e e' its E. induction its as [|it its IH]; cbn; [reflexivity|]. rewrite IH.
  assert (encode_operand AsBuilt e' it = encode_operand AsBuilt e it) as ->; [|reflexivity].
  unfold encode_operand. destruct (it_expr it) as [[w|k]|]; cbn [eval]; rewrite ?E; reflexivity.
Qed.

Theorem C57_hoist : forall file src src' p q n v o,
  program_means src (p ++ SConst n v :: q) -> program_means src' (SConst n v :: p ++ q) -> small src -> small src' ->
  ~ In SEnd p -> monotone AsBuilt (p ++ SConst n v :: q) ->
  (forall lab op, In (SInstr lab "JMP" op) p -> operand_expr op = Some (Lab n) -> op = ODir (Lab n) \/ op = OInd (Lab n)) ->
  gaia file src = Ret o -> exit_code o = 0 ->
  exists o', gaia file src' = Ret o' /\ exit_code o' = 0 /\ stdout o' = stdout o /\ binary o' = binary o.
Proof.
  intros file src src' p q n v o M M' B B' NE Mo PJ G X.
  destruct (success file src _ o M B G X) as (fin & code & E & P & S & Im). specialize (Im Mo).
  unfold pass1_program in E. pose proof E as E0. rewrite pass1_app in E by exact NE. destruct (pass1 AsBuilt (mkP1 0 [] []) p) as [st1|] eqn:E1; [|discriminate].
  cbn [pass1 pass1_stmt] in E. unfold define in E. destruct (lookup (p1_env st1) n) eqn:L; [discriminate|].
  assert (F : Forall (plain_jump n) p).
  { apply Forall_forall. intros s Hs lab op -> Ho. eapply PJ; eauto. }
  assert (D : forall s, In s p -> defines s <> Some n).
  { intros s Hs K. destruct (pass1_env _ _ _ _ NE E1) as [_ V]. destruct (V n) as [_ V2]. destruct V2 as (w & V2); [right; eauto|]. congruence. }
  assert (R0 : ahead n v (mkP1 0 [] []) (mkP1 0 [(n, v)] [])).
  { constructor; reflexivity. }
  destruct (pass1_ahead n v p _ _ _ F D NE R0 E1) as (st1' & E1' & R1).
  assert (R2 : alike1 (mkP1 (p1_addr st1) ((n, v) :: p1_env st1) (p1_items st1)) st1').
  { destruct R1 as [A I N Ev]. split; [exact A|]. split; [exact I|exact Ev]. }
  destruct (pass1_alike1 _ _ _ _ R2 E) as (fin' & E' & (A' & I' & Ev')).
  destruct (succeeds file src' (SConst n v :: p ++ q) fin' code) as (o' & G' & X' & S' & Im'); auto.
  { unfold pass1_program. cbn [pass1 pass1_stmt define p1_env p1_addr p1_items lookup]. rewrite pass1_app by exact NE. rewrite E1'. exact E'. }
  { rewrite I', (pass2_alike _ _ _ Ev'). exact P. }
  exists o'. split; [exact G'|]. split; [exact X'|]. split.
  - assert (C : count defines_label (body (SConst n v :: p ++ q)) = count defines_label (body (p ++ SConst n v :: q))).
    { cbn [body]. rewrite !body_app by exact NE. rewrite count_cons, !count_app. cbn [body]. rewrite count_cons. lia. }
    rewrite C in S'. unfold SuccessReport in *. congruence.
  - symmetry. eapply image_unique; [exact Im|]. apply Im'. split; [exact I|]. cbn [pass1_stmt define p1_env p1_addr p1_items lookup].
    apply (monotone_ahead n v (SConst n v :: q) q) with (st := mkP1 0 [] []); eauto.
    intros st st' R Mx. cbn [monotone_from pass1_stmt] in Mx. destruct Mx as [_ Mx]. unfold define in Mx. rewrite (h_new _ _ _ _ R) in Mx.
    eapply monotone_alike1; [|exact Mx]. destruct R as [A I N Ev]. split; [exact A|]. split; [exact I|exact Ev].
Qed.

Example C57_case : exists file src src' p q n v o,
  program_means src (p ++ SConst n v :: q) /\ program_means src' (SConst n v :: p ++ q) /\ small src /\ small src' /\
  ~ In SEnd p /\ monotone AsBuilt (p ++ SConst n v :: q) /\
  (forall lab op, In (SInstr lab "JMP" op) p -> operand_expr op = Some (Lab n) -> op = ODir (Lab n) \/ op = OInd (Lab n)) /\
  gaia file src = Ret o /\ exit_code o = 0 /\ binary o = [76; 4; 0; 240; 255; 165; 4].
Proof.
  set (l1 := [T " jmp OUT"; T " beq OUT"]). set (l2 := [T " lda OUT"]).
  destruct (statements l1) as [p|] eqn:E1; [|vm_compute in E1; discriminate].
  destruct (statements l2) as [q|] eqn:E2; [|vm_compute in E2; discriminate].
  exists (T "a.asm"), (join (l1 ++ T "OUT = 4" :: l2)), (join (T "OUT = 4" :: l1 ++ l2)), p, q, (T "OUT"), 4. vm_compute in E1, E2. injection E1 as <-. injection E2 as <-.
  eexists. split; [apply means_lines; vm_compute; reflexivity|]. split; [apply means_lines; vm_compute; reflexivity|].
  do 2 (split; [vm_compute; reflexivity|]). split; [intros [K|[K|[]]]; discriminate|]. split; [vm_compute; repeat split; discriminate|].
  split. { intros lab op [K|[K|[]]]; try discriminate. injection K as <- <-. intros _. left. reflexivity. }
  split; [vm_compute; reflexivity|]. split; reflexivity.
Qed.


(** without the exception of the indexed jump the claim is false: the code accepts it when the name is defined later *)
Theorem C57_indexed_jump : exists file src src' p q n v o o',
  program_means src (p ++ SConst n v :: q) /\ program_means src' (SConst n v :: p ++ q) /\ small src /\ small src' /\
  ~ In SEnd p /\ monotone AsBuilt (p ++ SConst n v :: q) /\
  gaia file src = Ret o /\ exit_code o = 0 /\ gaia file src' = Ret o' /\ exit_code o' = 1.
Proof.
  set (l1 := [T " jmp OUT,X"]).
  destruct (statements l1) as [p|] eqn:E1; [|vm_compute in E1; discriminate].
  exists (T "a.asm"), (join (l1 ++ [T "OUT = $1234"])), (join (T "OUT = $1234" :: l1)), p, [], (T "OUT"), 4660. vm_compute in E1. injection E1 as <-.
  eexists. eexists. split; [apply means_lines; vm_compute; reflexivity|]. split; [apply means_lines; vm_compute; reflexivity|].
  do 2 (split; [vm_compute; reflexivity|]). split; [intros [K|[]]; discriminate|]. split; [vm_compute; repeat split; discriminate|].
  split; [vm_compute; reflexivity|]. split; [reflexivity|]. split; [vm_compute; reflexivity|reflexivity].
Qed.

(** without the condition on the origins the claim is false: the jump left open writes zero bytes over code in front *)
Theorem C57_backwards : exists file src src' p q n v o o',
  program_means src (p ++ SConst n v :: q) /\ program_means src' (SConst n v :: p ++ q) /\ small src /\ small src' /\
  ~ In SEnd p /\ (forall lab op, In (SInstr lab "JMP" op) p -> operand_expr op = Some (Lab n) -> op = ODir (Lab n) \/ op = OInd (Lab n)) /\
  gaia file src = Ret o /\ exit_code o = 0 /\ gaia file src' = Ret o' /\ exit_code o' = 0 /\ binary o <> binary o'.
Proof.
  set (l1 := [T ".ORG 3"; T " NOP"; T " NOP"; T " NOP"; T ".ORG 0"; T " BRK"; T " NOP"; T " NOP"; T ".ORG 6"; T " JMP OUT"]).
  destruct (statements l1) as [p|] eqn:E1; [|vm_compute in E1; discriminate].
  exists (T "a.asm"), (join (l1 ++ [T "OUT = $1234"])), (join (T "OUT = $1234" :: l1)), p, [], (T "OUT"), 4660. vm_compute in E1. injection E1 as <-.
  eexists. eexists. split; [apply means_lines; vm_compute; reflexivity|]. split; [apply means_lines; vm_compute; reflexivity|].
  do 2 (split; [vm_compute; reflexivity|]). split; [intro K; repeat destruct K as [K|K]; (discriminate || exact K)|].
  split. { intros lab op K E. repeat destruct K as [K|K]; try discriminate; try contradiction; try (injection K as <- <-; left; reflexivity). }
  split; [vm_compute; reflexivity|]. split; [reflexivity|]. split; [vm_compute; reflexivity|]. split; [reflexivity|]. vm_compute. discriminate.
Qed.
