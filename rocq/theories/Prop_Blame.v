(** Prop_Blame.v -- C83: a change of a part of a program that assembles, if it keeps the place and the labels, can
    only cause an error in the changed part. *)
From Verif Require Import Base Proof_Base Model_Main Spec_Isa Spec_Text Spec_Asm Spec_Diag Spec_Prog Spec_Report Spec_Edit
  Proof_Core Proof_Modes Proof_Diag Proof_Ref Proof_Prog Proof_Check Proof_Rewrite Proof_Sim2 Proof_Image Prop_Program Prop_Edit.

(** ** The instructions in front do not matter for reading a statement *)
Definition under (D : list placed) (st : dstate) : dstate := mkD (d_addr st) (d_env st) (D ++ d_done st).
Definition under_res (D : list placed) (x : dstate + (string * place)) : dstate + (string * place) :=
  match x with inl st => inl (under D st) | inr e => inr e end.

Lemma stmt_under : forall D n st s, diag_stmt AsBuilt n (under D st) s = under_res D (diag_stmt AsBuilt n st s).
Proof.
  intros D n st s.
  assert (I : forall st m o, diag_instr AsBuilt n (under D st) m o = under_res D (diag_instr AsBuilt n st m o)).
  { intros st0 m o. unfold diag_instr. cbn [under d_addr d_env d_done].
    destruct (unresolved (d_env st0) o && _); [reflexivity|]. destruct (denoted_mode m o _) as [md|]; [|reflexivity].
    destruct (has_mode AsBuilt m md _) as [[op size]|]; [|reflexivity].
    destruct (unresolved (d_env st0) o); [|destruct (encode_operand _ _ _); [|reflexivity]];
      unfold under_res, under; cbn [d_addr d_env d_done]; rewrite app_assoc; reflexivity. }
  destruct s as [|l|l v|v| |[l|] m o]; cbn [diag_stmt]; try reflexivity; cbn [under d_addr d_env d_done];
    try (destruct (lookup (d_env st) l); reflexivity).
  - destruct (lookup (d_env st) l); [reflexivity|]. apply (I (d_define st l (d_addr st))).
  - apply I.
Qed.

(** ** The lines of the instructions *)
Lemma stmt_lines : forall n st s st', diag_stmt AsBuilt n st s = inl st' ->
  exists more, d_done st' = d_done st ++ more /\ Forall (fun p => pl_line p = n) more.
Proof.
  intros n st s st' H.
  assert (I : forall st m o st', diag_instr AsBuilt n st m o = inl st' -> exists more, d_done st' = d_done st ++ more /\ Forall (fun p => pl_line p = n) more).
  { intros st0 m o st1 K. unfold diag_instr in K. destruct (unresolved (d_env st0) o && _); [discriminate|].
    destruct (denoted_mode m o _) as [md|]; [|discriminate]. destruct (has_mode AsBuilt m md _) as [[op size]|]; [|discriminate].
    destruct (unresolved (d_env st0) o); [|destruct (encode_operand _ _ _); [|discriminate]]; injection K as <-; cbn [d_done];
      (eexists; split; [reflexivity|repeat constructor]). }
  destruct s as [|l|l v|v| |[l|] m o]; cbn [diag_stmt] in H;
    try (destruct (lookup (d_env st) l); [discriminate|]);
    try (injection H as <-; exists []; rewrite app_nil_r; auto; fail).
  - apply I in H. exact H.
  - apply I in H. exact H.
Qed.

Lemma accepts_step : forall n st s p, s <> SEnd ->
  accepts AsBuilt n st (s :: p) = match diag_stmt AsBuilt n st s with inl st' => accepts AsBuilt (n + 1) st' p | inr _ => None end.
Proof. intros n st s p N. destruct s; try congruence; reflexivity. Qed.
Lemma diag_step : forall n st s p, s <> SEnd ->
  diag_from AsBuilt n st (s :: p) = match diag_stmt AsBuilt n st s with inl st' => diag_from AsBuilt (n + 1) st' p | inr (m, w) => DError n m w end.
Proof. intros n st s p N. destruct s; try congruence; reflexivity. Qed.

Lemma accepts_lines : forall p n st st', accepts AsBuilt n st p = Some st' ->
  exists more, d_done st' = d_done st ++ more /\ Forall (fun q => n <= pl_line q < n + zlen p) more.
Proof.
  induction p as [|s p IH]; intros n st st' H.
  - injection H as <-. exists []. rewrite app_nil_r. auto.
  - assert (N : s <> SEnd) by (intros ->; discriminate). rewrite accepts_step in H by exact N.
    destruct (diag_stmt AsBuilt n st s) as [st1|] eqn:E; [|discriminate].
    destruct (stmt_lines _ _ _ _ E) as (a & A1 & A2). destruct (IH _ _ _ H) as (b & B1 & B2).
    exists (a ++ b). rewrite B1, A1, app_assoc. split; [reflexivity|]. assert (0 <= zlen p) by (unfold zlen; lia). rewrite zlen_cons.
    apply Forall_app. split; [eapply Forall_impl; [|exact A2]|eapply Forall_impl; [|exact B2]]; intros q Q; cbn beta in *; lia.
Qed.

(** reading a part: an error in one of its lines, or the rest is read from the state behind it *)
Lemma diag_part : forall p q n st, ~ In SEnd p ->
  match accepts AsBuilt n st p with
  | Some st' => diag_from AsBuilt n st (p ++ q) = diag_from AsBuilt (n + zlen p) st' q
  | None => exists k m w, diag_from AsBuilt n st (p ++ q) = DError k m w /\ n <= k < n + zlen p
  end.
Proof.
  induction p as [|s p IH]; intros q n st NE.
  - cbn [accepts app]. rewrite Z.add_0_r. reflexivity.
  - assert (N : s <> SEnd) by (intros ->; apply NE; left; reflexivity).
    assert (NE' : ~ In SEnd p) by (intro K; apply NE; right; exact K).
    cbn [app]. rewrite accepts_step, diag_step by exact N. assert (Z0 : 0 <= zlen p) by (unfold zlen; lia). rewrite zlen_cons.
    destruct (diag_stmt AsBuilt n st s) as [st1|[m w]].
    + specialize (IH q (n + 1) st1 NE'). destruct (accepts AsBuilt (n + 1) st1 p) as [st'|].
      * rewrite IH. f_equal. lia.
      * destruct IH as (k & m & w & E & R). exists k, m, w. split; [exact E|lia].
    + exists n, m, w. split; [reflexivity|lia].
Qed.

(** ** The instructions that are completed at the end *)
Definition finished (e : env) (p : placed) : Prop := pl_bytes p <> None \/ encode_operand AsBuilt e (pl_item p) <> None.

Lemma complete_finished : forall e l c, complete AsBuilt e l = inl c -> Forall (finished e) l.
Proof.
  induction l as [|p l IH]; intros c H; [constructor|]. cbn [complete] in H. unfold finished.
  destruct (pl_bytes p) as [bs|] eqn:B; [|destruct (encode_operand AsBuilt e (pl_item p)) as [bs|] eqn:En; [|discriminate]];
    (destruct (complete AsBuilt e l) as [c'|]; [|discriminate]; constructor; [rewrite ?B, ?En; (left; discriminate) || (right; discriminate)|eauto]).
Qed.

Lemma complete_blame : forall e (P : placed -> Prop) l k m, Forall (fun p => finished e p \/ P p) l -> complete AsBuilt e l = inr (k, m) ->
  exists p, In p l /\ P p /\ pl_line p = k /\ (m = "label definition was not found"%string \/ m = "branch offset too far away"%string).
Proof.
  induction l as [|p l IH]; intros k m F H; [discriminate|]. inversion F as [|? ? G F']; subst. cbn [complete] in H.
  destruct (pl_bytes p) as [bs|] eqn:B.
  - destruct (complete AsBuilt e l) as [c'|[k' m']]; [discriminate|]. injection H as -> ->. destruct (IH _ _ F' eq_refl) as (q & I & R). exists q. split; [right; exact I|exact R].
  - destruct (encode_operand AsBuilt e (pl_item p)) as [bs|] eqn:En.
    + destruct (complete AsBuilt e l) as [c'|[k' m']]; [discriminate|]. injection H as -> ->. destruct (IH _ _ F' eq_refl) as (q & I & R). exists q. split; [right; exact I|exact R].
    + injection H as <- <-. exists p. split; [left; reflexivity|]. destruct G as [[G|G]|G]; [congruence|congruence|].
      split; [exact G|]. split; [reflexivity|]. destruct (match it_expr (pl_item p) with Some x => eval e x | None => None end); auto.
Qed.

Lemma finished_eq : forall e e' p p', (forall n, lookup e n = lookup e' n) -> peq p p' -> finished e p -> finished e' p'.
Proof.
  intros e e' p p' E [I B] F. unfold finished in *. rewrite <- I, <- B.
  rewrite <- (encode_eq nobody AsBuilt e e'); [exact F|intros n _; apply E|intros n _ []].
Qed.

(** the rest is accepted in the same way *)
Lemma rest_accepts : forall p n n' st st' fin, deq nobody st st' -> accepts AsBuilt n st p = Some fin ->
  exists fin', accepts AsBuilt n' st' p = Some fin' /\ deq nobody fin fin'.
Proof.
  induction p as [|s p IH]; intros n n' st st' fin Q H.
  - injection H as <-. exists st'. auto.
  - assert (N : s <> SEnd) by (intros ->; discriminate). rewrite accepts_step in H |- * by exact N.
    pose proof (stmt_eq nobody n n' st st' s Q (fun k _ K => K)) as S.
    destruct (diag_stmt AsBuilt n st s) as [s1|]; [|discriminate]. destruct (diag_stmt AsBuilt n' st' s) as [s2|]; [|contradiction].
    eapply IH; eauto.
Qed.

Lemma accepts_under : forall D p n st fin, accepts AsBuilt n st p = Some fin -> accepts AsBuilt n (under D st) p = Some (under D fin).
Proof.
  induction p as [|s p IH]; intros n st fin H; [injection H as <-; reflexivity|].
  assert (N : s <> SEnd) by (intros ->; discriminate). rewrite accepts_step in H |- * by exact N. rewrite stmt_under.
  destruct (diag_stmt AsBuilt n st s) as [s1|]; [|discriminate]. cbn [under_res]. apply IH. exact H.
Qed.
Lemma accepts_bare : forall p n st fin, accepts AsBuilt n st p = Some fin ->
  exists fin0, accepts AsBuilt n (mkD (d_addr st) (d_env st) []) p = Some fin0 /\ fin = under (d_done st) fin0.
Proof.
  intros p. assert (H : forall n st, accepts AsBuilt n st p =
    match accepts AsBuilt n (mkD (d_addr st) (d_env st) []) p with Some f => Some (under (d_done st) f) | None => None end).
  { intros n st. replace st with (under (d_done st) (mkD (d_addr st) (d_env st) [])) at 1 by (destruct st; unfold under; cbn; rewrite app_nil_r; reflexivity).
    generalize (mkD (d_addr st) (d_env st) []) as s0. generalize (d_done st) as D. clear st. revert n.
    induction p as [|s q IH]; intros n D s0; [reflexivity|].
    assert (s = SEnd \/ s <> SEnd) as [-> |N] by (destruct s; auto; right; discriminate); [reflexivity|].
    rewrite !accepts_step, stmt_under by exact N. destruct (diag_stmt AsBuilt n s0 s) as [s1|]; [|reflexivity]. cbn [under_res]. apply IH. }
  intros n st fin E. rewrite H in E. destruct (accepts AsBuilt n _ p) as [f|]; [|discriminate]. injection E as <-. eauto.
Qed.

Lemma diag_body : forall p n st, match accepts AsBuilt n st (body p) with
  | Some st' => diag_from AsBuilt n st p = d_close AsBuilt st'
  | None => True end.
Proof.
  induction p as [|s p IH]; intros n st; [reflexivity|].
  assert (s = SEnd \/ s <> SEnd) as [-> |N] by (destruct s; auto; right; discriminate); [reflexivity|].
  replace (body (s :: p)) with (s :: body p) by (destruct s; congruence || reflexivity).
  rewrite accepts_step, diag_step by exact N. destruct (diag_stmt AsBuilt n st s) as [s1|]; [apply IH|exact Logic.I].
Qed.

(** ** The theorem *)
Theorem C83_blame : forall file src src' pre mid mid' post a e o o',
  program_means src (pre ++ mid ++ post) -> program_means src' (pre ++ mid' ++ post) -> small src -> small src' ->
  ~ In SEnd pre -> ~ In SEnd mid -> ~ In SEnd mid' ->
  address AsBuilt (pre ++ mid) (List.length (pre ++ mid)) = Some a -> labels AsBuilt (pre ++ mid) = Some e ->
  (forall a' e', address AsBuilt (pre ++ mid') (List.length (pre ++ mid')) = Some a' -> labels AsBuilt (pre ++ mid') = Some e' ->
     a' = a /\ forall n, lookup e' n = lookup e n) ->
  gaia file src = Ret o -> exit_code o = 0 -> gaia file src' = Ret o' -> exit_code o' <> 0 ->
  exists n message line pos, Report file n message line pos (stdout o') /\
    zlen pre < n <= zlen pre + zlen mid'.
Proof.
  intros file src src' pre mid mid' post a e o o' M M' B B' N0 N1 N2 Ha He Same G X G' X'.
  assert (N01 : ~ In SEnd (pre ++ mid)) by (intro K; apply in_app_or in K; tauto).
  assert (N02 : ~ In SEnd (pre ++ mid')) by (intro K; apply in_app_or in K; tauto).
  destruct (program_cases file src' _ M' B') as [(s1 & c1 & b1 & _ & _ & _ & _ & G1 & _)|(n & m & w & o1 & lines & line & toks & D' & _ & G1 & _ & _ & _ & _ & _ & R)].
  { rewrite G1 in G'. injection G' as <-. destruct X'. reflexivity. }
  rewrite G1 in G'. injection G' as ->.
  exists n, m, (before_nul line), (place_offset toks w). split; [exact R|]. clear R G1 M' B' X'.
  destruct (assembled file src _ o M B G X) as (fin & code & D & _). destruct (diagnose_state _ _ _ _ _ _ D) as [Ac Co]. clear M B G X.
  rewrite body_app, (body_app mid) in Ac by assumption. rewrite accepts_app in Ac.
  destruct (accepts AsBuilt 1 (mkD 0 [] []) pre) as [st0|] eqn:A0; [|discriminate].
  rewrite accepts_app in Ac. destruct (accepts AsBuilt (1 + zlen pre) st0 mid) as [st1|] eqn:A1; [|discriminate].
  unfold diagnose in D'. pose proof (diag_part pre (mid' ++ post) 1 (mkD 0 [] []) N0) as P0. rewrite A0 in P0. rewrite P0 in D'.
  pose proof (diag_part mid' post (1 + zlen pre) st0 N2) as P1.
  destruct (accepts AsBuilt (1 + zlen pre) st0 mid') as [st1'|] eqn:A1'.
  2:{ destruct P1 as (k & m' & w' & P1 & K). rewrite P1 in D'. injection D' as -> _ _. lia. }
  rewrite P1 in D'.
  (* the two states behind the part *)
  assert (S1 : state_after AsBuilt (pre ++ mid) = Some st1) by (unfold state_after; rewrite accepts_app, A0; exact A1).
  assert (S1' : state_after AsBuilt (pre ++ mid') = Some st1') by (unfold state_after; rewrite accepts_app, A0; exact A1').
  destruct (state_after_pass1 _ _ _ S1) as (Q1 & _). destruct (state_after_pass1 _ _ _ S1') as (Q1' & _).
  unfold address in Ha, Same. rewrite body_id, firstn_all, Q1 in Ha by exact N01. rewrite body_id, firstn_all, Q1' in Same by exact N02.
  unfold labels in He, Same. rewrite Q1 in He. rewrite Q1' in Same. injection Ha as Ha. injection He as He.
  destruct (Same _ _ eq_refl eq_refl) as [Ea Ee]. cbn [p1_of p1_addr p1_env] in *.
  (* the rest *)
  destruct (accepts_bare _ _ _ _ Ac) as (f0 & F0 & ->).
  assert (Qd : deq nobody (mkD (d_addr st1) (d_env st1) []) (mkD (d_addr st1') (d_env st1') [])).
  { constructor; cbn [d_addr d_env d_done]; auto; [congruence|]. intros k _. rewrite Ee, He. reflexivity. }
  destruct (rest_accepts _ _ (1 + zlen pre + zlen mid') _ _ _ Qd F0) as (f0' & F0' & Qf).
  apply (accepts_under (d_done st1')) in F0'.
  replace (under (d_done st1') (mkD (d_addr st1') (d_env st1') [])) with st1' in F0'
    by (destruct st1'; unfold under; cbn; rewrite app_nil_r; reflexivity).
  pose proof (diag_body post (1 + zlen pre + zlen mid') st1') as Db. rewrite F0' in Db. rewrite Db in D'.
  unfold d_close in D'. destruct (complete AsBuilt _ _) as [c'|[k m']] eqn:C'; [discriminate|]. injection D' as -> -> _.
  apply complete_finished in Co. cbn [under d_env d_done] in Co, C'.
  destruct (accepts_lines _ _ _ _ A0) as (i0 & I0 & _). cbn [d_done app] in I0.
  destruct (accepts_lines _ _ _ _ A1) as (i1 & I1 & _). destruct (accepts_lines _ _ _ _ A1') as (i1' & I1' & L1').
  rewrite I1, <- app_assoc in Co. apply Forall_app in Co. destruct Co as [Co0 Co1]. apply Forall_app in Co1. destruct Co1 as [_ Co2].
  assert (Eq : forall x, lookup (d_env f0) x = lookup (d_env f0') x) by (intro x; apply (q_env _ _ _ Qf); intros []).
  assert (Fq : Forall (fun p => finished (d_env f0') p \/ (fun q => 1 + zlen pre <= pl_line q < 1 + zlen pre + zlen mid') p) (d_done st1' ++ d_done f0')).
  { rewrite I1', <- app_assoc. apply Forall_app. split; [|apply Forall_app; split].
  - eapply Forall_impl; [|exact Co0]. intros q Hq. left. apply (finished_eq (d_env f0) (d_env f0') q q); [exact Eq|split; reflexivity|exact Hq].
  - eapply Forall_impl; [|exact L1']. intros q Hq. right. exact Hq.
  - pose proof (q_done _ _ _ Qf) as Fd. clear - Fd Co2 Eq. revert Co2. induction Fd as [|x y l l' H Fd IH]; intro F; [constructor|].
    inversion F; subst. constructor; [|auto]. left. eapply finished_eq; eauto. }
  destruct (complete_blame _ _ _ _ _ Fq C') as (q & _ & Hq & <- & _). cbn beta in Hq. lia.
Qed.

Example C83_case : exists file src src' pre mid mid' post a e o o',
  program_means src (pre ++ mid ++ post) /\ program_means src' (pre ++ mid' ++ post) /\ small src /\ small src' /\
  ~ In SEnd pre /\ ~ In SEnd mid /\ ~ In SEnd mid' /\
  address AsBuilt (pre ++ mid) (List.length (pre ++ mid)) = Some a /\ labels AsBuilt (pre ++ mid) = Some e /\
  (forall a' e', address AsBuilt (pre ++ mid') (List.length (pre ++ mid')) = Some a' -> labels AsBuilt (pre ++ mid') = Some e' ->
     a' = a /\ forall n, lookup e' n = lookup e n) /\
  gaia file src = Ret o /\ exit_code o = 0 /\ gaia file src' = Ret o' /\ exit_code o' <> 0 /\
  Report file 3 "label definition was not found" (T " jmp NO") (Some 5%nat) (stdout o') /\ zlen pre = 1 /\ zlen mid' = 2.
Proof.
  set (l0 := [T " beq OUT"]). set (l1 := [T "IN jmp OUT"; T " nop"]). set (l2 := [T "IN nop"; T " jmp NO"]). set (l3 := [T "OUT rts"]).
  destruct (statements l0) as [pre|] eqn:E0; [|vm_compute in E0; discriminate].
  destruct (statements l1) as [mid|] eqn:E1; [|vm_compute in E1; discriminate].
  destruct (statements l2) as [mid'|] eqn:E2; [|vm_compute in E2; discriminate].
  destruct (statements l3) as [post|] eqn:E3; [|vm_compute in E3; discriminate].
  exists (T "a.asm"), (join (l0 ++ l1 ++ l3)), (join (l0 ++ l2 ++ l3)), pre, mid, mid', post, 6, [(T "IN", 2)].
  vm_compute in E0, E1, E2, E3. injection E0 as <-. injection E1 as <-. injection E2 as <-. injection E3 as <-.
  do 2 eexists. do 2 (split; [apply means_lines; vm_compute; reflexivity|]). do 2 (split; [vm_compute; reflexivity|]).
  do 3 (split; [intro K; repeat destruct K as [K|K]; (discriminate || exact K)|]).
  do 2 (split; [vm_compute; reflexivity|]).
  split. { intros a' e' Ha He. vm_compute in Ha, He. injection Ha as <-. injection He as <-. split; [reflexivity|]. intro n. reflexivity. }
  split; [vm_compute; reflexivity|]. split; [reflexivity|]. split; [vm_compute; reflexivity|]. split; [discriminate|].
  split; [|split; reflexivity]. exists (T " jmp NO"). split.
  - exists []. split; [reflexivity|]. split; [constructor|]. exists (T " jmp N"), "O"%char. split; [reflexivity|].
    intros [K|[K|[K|K]]]; vm_compute in K; discriminate.
  - vm_compute. reflexivity.
Qed.
