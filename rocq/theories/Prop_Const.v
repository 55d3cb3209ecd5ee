(** Prop_Const.v -- C93: another value of a constant changes the operands that refer to it, and nothing else. *)
From Verif Require Import Base Proof_Base Model_Main Spec_Isa Spec_Text Spec_Asm Spec_Diag Spec_Prog Spec_Report Spec_Edit Spec_Shift
  Proof_Core Proof_Modes Proof_Diag Proof_Ref Proof_Sim2 Proof_Image Proof_Kept Proof_Prog Proof_Check Proof_Place Proof_Rewrite Proof_Reloc
  Prop_Program Prop_Edit Prop_Move Prop_Code Prop_Shift.

Section Const.
  Variables (n : text) (v v' : Z) (q : list stmt).
  Hypothesis sizes : forall lab m o, In (SInstr lab m o) q -> is_operand_of o n = true ->
    is_branch_name m = true \/ is_jump_name m = true \/ (v <= 0xFF <-> v' <= 0xFF).

  Record swap (st st' : pass1_state) : Prop := {
    sw_addr : p1_addr st' = p1_addr st;
    sw_old : lookup (p1_env st) n = Some v;
    sw_env : forall k, lookup (p1_env st') k = if text_eqb n k then Some v' else lookup (p1_env st) k }.

  Lemma swap_mode : forall lab m o e e', In (SInstr lab m o) q -> lookup e n = Some v ->
    (forall k, lookup e' k = if text_eqb n k then Some v' else lookup e k) ->
    denoted_mode m o (value_of e' o) = denoted_mode m o (value_of e o) /\ known (value_of e' o) = known (value_of e o).
  Proof.
    intros lab m o e e' I L E. pose proof (sizes lab m o I) as S. unfold is_operand_of, value_of in *. destruct (operand_expr o) as [[w|k]|]; cbn [eval]; auto.
    rewrite E. destruct (text_eqb n k) eqn:K; [|auto]. apply text_eqb_eq in K. subst k. rewrite L. cbn [known]. split; [|reflexivity].
    apply denoted_side. intros B J. destruct (S eq_refl) as [S1|[S1|S1]]; [congruence|congruence|tauto].
  Qed.

  Lemma swap_step : forall s st st' f f', In s q -> s <> SEnd -> swap st st' -> pass1_stmt AsBuilt st s = Some f -> pass1_stmt AsBuilt st' s = Some f' -> swap f f'.
  Proof.
    intros s st st' f f' I Ns [A O E] H H'.
    pose proof (pass1_stmt_env _ _ _ _ Ns H) as V. pose proof (pass1_stmt_env _ _ _ _ Ns H') as V'.
    assert (Env : lookup (p1_env f) n = Some v /\ forall k, lookup (p1_env f') k = if text_eqb n k then Some v' else lookup (p1_env f) k).
    { destruct (defines s) as [x|] eqn:D; [|rewrite V, V'; auto]. destruct V as [L ->], V' as [L' ->].
      assert (Nx : text_eqb x n = false) by (destruct (text_eqb x n) eqn:K; [apply text_eqb_eq in K; congruence|reflexivity]).
      cbn [lookup]. rewrite Nx. split; [exact O|]. intro k. rewrite E, A. destruct (text_eqb x k) eqn:K; [|reflexivity].
      destruct (text_eqb n k) eqn:K2; [|reflexivity]. apply text_eqb_eq in K, K2. subst. rewrite text_eqb_refl in Nx. discriminate. }
    destruct Env as [E1 E2]. constructor; [|exact E1|exact E2].
    destruct s as [|x|x w|w| |lab m o]; cbn [pass1_stmt] in H, H'.
    - injection H as <-. injection H' as <-. exact A.
    - apply define_some in H. apply define_some in H'. destruct H as [_ ->], H' as [_ ->]. exact A.
    - apply define_some in H. apply define_some in H'. destruct H as [_ ->], H' as [_ ->]. exact A.
    - injection H as <-. injection H' as <-. reflexivity.
    - congruence.
    - destruct (pass1_stmt_instr AsBuilt st lab m o f H) as (md & op & size & D & M & _ & F).
      destruct (pass1_stmt_instr AsBuilt st' lab m o f' H') as (md' & op' & size' & D' & M' & _ & F').
      rewrite F in E1, E2. rewrite F' in E2. cbn [p1_env] in E1, E2.
      destruct (swap_mode lab m o _ _ I E1 E2) as [Q1 Q2]. rewrite Q1, D in D'. injection D' as <-. unfold known in Q2. rewrite Q2, M in M'. injection M' as <- <-.
      rewrite F, F'. cbn [p1_addr]. lia.
  Qed.

  Lemma swap_all : forall rest done st st' f f', q = done ++ rest -> ~ In SEnd rest -> swap st st' -> pass1 AsBuilt st rest = Some f -> pass1 AsBuilt st' rest = Some f' ->
    forall k, exists sk sk', pass1 AsBuilt st (firstn k rest) = Some sk /\ pass1 AsBuilt st' (firstn k rest) = Some sk' /\ swap sk sk'.
  Proof.
    induction rest as [|s rest IH]; intros done st st' f f' E N R H H' k.
    { rewrite firstn_nil. exists st, st'. auto. }
    destruct k as [|k]; [exists st, st'; auto|]. cbn [firstn].
    assert (Ns : s <> SEnd) by (intros ->; apply N; left; reflexivity).
    rewrite pass1_cons in H, H' by exact Ns. destruct (pass1_stmt AsBuilt st s) as [g|] eqn:S; [|discriminate].
    destruct (pass1_stmt AsBuilt st' s) as [g'|] eqn:S'; [|discriminate].
    assert (R1 : swap g g') by (eapply swap_step; eauto; rewrite E; apply in_or_app; right; left; reflexivity).
    assert (E1 : q = (done ++ [s]) ++ rest) by (rewrite <- app_assoc; exact E).
    destruct (IH _ _ _ _ _ E1 (fun K => N (or_intror K)) R1 H H' k) as (sk & sk' & A & B & C). exists sk, sk'.
    rewrite !pass1_cons, S, S' by exact Ns. auto.
  Qed.
End Const.

Theorem C93_value : forall file src src' pre n v v' post fin o o',
  program_means src (pre ++ SConst n v :: post) -> program_means src' (pre ++ SConst n v' :: post) -> small src -> small src' -> ~ In SEnd pre ->
  same_sizes post n v v' -> labels AsBuilt (pre ++ SConst n v :: post) = Some fin ->
  gaia file src = Ret o -> exit_code o = 0 -> gaia file src' = Ret o' -> exit_code o' = 0 ->
  (forall k, address AsBuilt (pre ++ SConst n v' :: post) k = address AsBuilt (pre ++ SConst n v :: post) k) /\
  (exists fin', labels AsBuilt (pre ++ SConst n v' :: post) = Some fin' /\
     forall k, lookup fin' k = if text_eqb n k then Some v' else lookup fin k) /\
  (forall k lab m op, nth_error (body (pre ++ SConst n v :: post)) k = Some (SInstr lab m op) ->
     twin (pre ++ SConst n v :: post) (pre ++ SConst n v' :: post) (binary o) (binary o') k k 0 (if is_operand_of op n then v' - v else 0)).
Proof.
  intros file src src' pre n v v' post fin o o' M M' B B' N0 SS Hf G X G' X'.
  destruct (success file src _ o M B G X) as (f & c & U & _ & _ & _). destruct (success file src' _ o' M' B' G' X') as (f' & c' & U' & _ & _ & _).
  assert (F : p1_env f = fin) by (unfold labels in Hf; rewrite U in Hf; injection Hf as <-; reflexivity).
  pose proof U as W. pose proof U' as W'. unfold pass1_program in W, W'. rewrite pass1_app in W, W' by exact N0.
  destruct (pass1 AsBuilt (mkP1 0 [] []) pre) as [f0|] eqn:E0; [|discriminate]. rewrite pass1_cons in W, W' by discriminate. cbn [pass1_stmt] in W, W'.
  destruct (define f0 n v) as [f1|] eqn:D1; [|discriminate]. destruct (define f0 n v') as [f2|] eqn:D2; [|discriminate].
  rewrite pass1_body in W, W'. set (q := body post) in *. assert (Nq : ~ In SEnd q) by apply body_no_end.
  assert (Sw : swap n v v' f1 f2).
  { apply define_some in D1. apply define_some in D2. destruct D1 as [_ ->], D2 as [_ ->]. constructor; cbn [p1_addr p1_env lookup]; rewrite ?text_eqb_refl; auto.
    intro k. destruct (text_eqb n k); reflexivity. }
  pose proof (swap_all n v v' q SS q [] f1 f2 f f' eq_refl Nq Sw W W') as All.
  assert (Bd : forall x, body (pre ++ SConst n x :: post) = pre ++ SConst n x :: q) by (intro x; rewrite body_app by exact N0; reflexivity).
  (* the states in front of the statement of index k *)
  assert (St : forall k, (k <= List.length pre)%nat \/ exists j, k = (List.length pre + S j)%nat).
  { intro k. destruct (Nat.le_gt_cases k (List.length pre)); [left; assumption|right]. exists (k - List.length pre - 1)%nat. lia. }
  assert (Fr : forall k x, (k <= List.length pre)%nat -> firstn k (body (pre ++ SConst n x :: post)) = firstn k pre).
  { intros k x H. rewrite Bd, firstn_app. replace (k - List.length pre)%nat with 0%nat by lia. apply app_nil_r. }
  assert (Bk : forall j x g, define f0 n x = Some g -> pass1_program AsBuilt (firstn (List.length pre + S j) (body (pre ++ SConst n x :: post))) = pass1 AsBuilt g (firstn j q)).
  { intros j x g D. rewrite Bd, firstn_app_2. cbn [firstn]. unfold pass1_program. rewrite pass1_app, E0, pass1_cons by (exact N0 || discriminate). cbn [pass1_stmt]. rewrite D. reflexivity. }
  assert (Fin : forall k, lookup (p1_env f') k = if text_eqb n k then Some v' else lookup fin k).
  { destruct (All (List.length q)) as (sk & sk' & A1 & A2 & A3). rewrite firstn_all in *. rewrite W in A1. injection A1 as <-. rewrite W' in A2. injection A2 as <-.
    intro k. rewrite (sw_env _ _ _ _ _ A3 k), F. reflexivity. }
  assert (Old : lookup fin n = Some v).
  { destruct (All (List.length q)) as (sk & sk' & A1 & A2 & A3). rewrite firstn_all in *. rewrite W in A1. injection A1 as <-. rewrite <- F. exact (sw_old _ _ _ _ _ A3). }
  assert (Hf' : labels AsBuilt (pre ++ SConst n v' :: post) = Some (p1_env f')) by (unfold labels; rewrite U'; reflexivity).
  split; [|split].
  - intro k. unfold address. destruct (St k) as [H|(j & ->)]; [rewrite !Fr by exact H; reflexivity|].
    rewrite (Bk j v f1 D1), (Bk j v' f2 D2). destruct (All j) as (sk & sk' & -> & -> & A3). cbn [option_map]. rewrite (sw_addr _ _ _ _ _ A3). reflexivity.
  - exists (p1_env f'). split; [exact Hf'|exact Fin].
  - intros k lab m op K.
    assert (K' : nth_error (body (pre ++ SConst n v' :: post)) k = Some (SInstr lab m op)).
    { rewrite Bd in *. destruct (Nat.lt_ge_cases k (List.length pre)) as [H|H]; [rewrite nth_error_app1 in * by exact H; exact K|].
      rewrite nth_error_app2 in * by exact H. destruct (k - List.length pre)%nat; [discriminate K|exact K]. }
    pose (t := if is_operand_of op n then v' - v else 0).
    assert (T : t = match operand_expr op with Some (Lab _) => t - (if is_branch_name m then 0 else 0) | _ => 0 end).
    { unfold t, is_operand_of. destruct (operand_expr op) as [[w|l]|]; try reflexivity. destruct (is_branch_name m); lia. }
    fold t. rewrite T.
    apply (twins file src src' _ _ o o' k k 0 t lab m op fin (p1_env f') M M' B B' G X G' X' K K' Hf Hf').
    + intros l O. rewrite Fin. unfold t, is_operand_of. rewrite O. destruct (text_eqb n l) eqn:E.
      * apply text_eqb_eq in E. subst l. rewrite Old. cbn [option_map]. f_equal. lia.
      * destruct (lookup fin l); cbn [option_map]; [rewrite Z.add_0_r|]; reflexivity.
    + intros a1 e1 a2 e2 A1 A2 A3 A4. unfold address, labels_at in *. destruct (St k) as [H|(j & ->)].
      { rewrite !Fr in * by exact H. rewrite A1 in A3. rewrite A2 in A4. injection A3 as <-. injection A4 as <-. split; [lia|auto]. }
      rewrite (Bk j v f1 D1) in *. rewrite (Bk j v' f2 D2) in *. destruct (All j) as (sk & sk' & B1 & B2 & B3). rewrite B1 in *. rewrite B2 in *. cbn [option_map] in *.
      injection A1 as <-. injection A2 as <-. injection A3 as <-. injection A4 as <-. destruct B3 as [SA SO SE]. split; [rewrite SA; lia|].
      assert (Kq : nth_error q j = Some (SInstr lab m op)).
      { rewrite Bd, nth_error_app2 in K by lia. replace (List.length pre + S j - List.length pre)%nat with (S j) in K by lia. exact K. }
      pose proof (nth_error_In _ _ Kq) as Iq.
      assert (Own : forall x, lab = Some x -> text_eqb x n = false).
      { intros x ->. destruct (text_eqb x n) eqn:E; [|reflexivity]. apply text_eqb_eq in E. subst x. exfalso.
        apply (pass1_no_redefine AsBuilt q f1 f n v Nq W (sw_old _ _ _ _ _ Sw) _ Iq eq_refl). }
      apply (swap_mode n v v' q SS lab m op _ _ Iq).
      * destruct lab as [x|]; cbn [with_own lookup]; [rewrite (Own x eq_refl)|]; exact SO.
      * intro l. destruct lab as [x|]; cbn [with_own lookup]; [|apply SE]. rewrite SA, SE. destruct (text_eqb x l) eqn:E; [|reflexivity].
        apply text_eqb_eq in E. subst l. pose proof (Own x eq_refl) as E. destruct (text_eqb n x) eqn:E2; [|reflexivity].
        apply text_eqb_eq in E2. subst x. rewrite text_eqb_refl in E. discriminate.
Qed.

(** ** and the program with the other value is assembled, unless a branch names the constant *)
Section Still.
  Variables (n : text) (v v' : Z) (q : list stmt).
  Hypothesis sizes : forall lab m o, In (SInstr lab m o) q -> is_operand_of o n = true ->
    is_branch_name m = true \/ is_jump_name m = true \/ (v <= 0xFF <-> v' <= 0xFF).

  Record swap2 (st st' : pass1_state) : Prop := {
    s2_addr : p1_addr st' = p1_addr st;
    s2_items : p1_items st' = p1_items st;
    s2_old : lookup (p1_env st) n = Some v;
    s2_env : forall k, lookup (p1_env st') k = if text_eqb n k then Some v' else lookup (p1_env st) k }.

  Lemma define_still : forall st st' x w f, swap2 st st' -> define st x w = Some f -> exists f', define st' x w = Some f' /\ swap2 f f'.
  Proof.
    intros st st' x w f [A I O E] H. apply define_some in H. destruct H as [L ->].
    assert (Nx : text_eqb n x = false) by (destruct (text_eqb n x) eqn:K; [apply text_eqb_eq in K; congruence|reflexivity]).
    assert (Nx' : text_eqb x n = false) by (destruct (text_eqb x n) eqn:K; [apply text_eqb_eq in K; subst; rewrite text_eqb_refl in Nx; discriminate|reflexivity]).
    unfold define. rewrite E, Nx, L, A, I. eexists. split; [reflexivity|]. constructor; cbn [p1_addr p1_items p1_env lookup]; [reflexivity|reflexivity|rewrite Nx'; exact O|].
    intro k. rewrite E. destruct (text_eqb x k) eqn:K; [|reflexivity]. apply text_eqb_eq in K. subst k. rewrite Nx. reflexivity.
  Qed.

  Lemma instr_still : forall st st' lab m o f, In (SInstr lab m o) q -> swap2 st st' -> pass1_instr AsBuilt st m o = Some f ->
    exists f', pass1_instr AsBuilt st' m o = Some f' /\ swap2 f f'.
  Proof.
    intros st st' lab m o f In1 [A I O E] H. destruct (swap_mode n v v' q sizes lab m o _ _ In1 O E) as [Q1 Q2].
    unfold pass1_instr in *. fold (value_of (p1_env st) o) in H. fold (value_of (p1_env st') o). rewrite Q1.
    destruct (denoted_mode m o (value_of (p1_env st) o)) as [md|]; [|discriminate]. unfold known in Q2. rewrite Q2.
    destruct (has_mode AsBuilt m md _) as [[op size]|]; [|discriminate]. injection H as <-. rewrite A, I. eexists. split; [reflexivity|]. constructor; cbn [p1_addr p1_items p1_env]; auto.
  Qed.

  Lemma stmt_still : forall s st st' f, In s q -> swap2 st st' -> pass1_stmt AsBuilt st s = Some f -> exists f', pass1_stmt AsBuilt st' s = Some f' /\ swap2 f f'.
  Proof.
    intros s st st' f In1 S H. destruct s as [|x|x w|w| |lab m o]; cbn [pass1_stmt] in *.
    - injection H as <-. eauto.
    - rewrite (s2_addr _ _ S). eapply define_still; eauto.
    - eapply define_still; eauto.
    - injection H as <-. destruct S as [A I O E]. eexists. split; [reflexivity|]. constructor; cbn [p1_addr p1_items p1_env]; auto.
    - injection H as <-. eauto.
    - destruct lab as [x|]; [|eapply instr_still; eauto]. rewrite (s2_addr _ _ S).
      destruct (define st x (p1_addr st)) as [f1|] eqn:D; [|discriminate]. destruct (define_still _ _ _ _ _ S D) as (f1' & D' & S'). rewrite D'. eapply instr_still; eauto.
  Qed.

  Lemma pass1_still : forall rest st st' f, (forall s, In s rest -> In s q) -> swap2 st st' -> pass1 AsBuilt st rest = Some f -> exists f', pass1 AsBuilt st' rest = Some f' /\ swap2 f f'.
  Proof.
    induction rest as [|s rest IH]; intros st st' f Sub S H; [injection H as <-; eexists; split; [reflexivity|exact S]|].
    assert (C : s = SEnd \/ s <> SEnd) by (destruct s; (left; reflexivity) || (right; discriminate)).
    destruct C as [-> |Ns]; [cbn [pass1] in *; injection H as <-; eauto|].
    rewrite pass1_cons in * by exact Ns. destruct (pass1_stmt AsBuilt st s) as [f1|] eqn:E; [|discriminate].
    destruct (stmt_still s st st' f1 (Sub s (or_introl eq_refl)) S E) as (f1' & E' & S'). rewrite E'. apply (IH f1 f1' f); auto. intros t I. apply Sub. right. exact I.
  Qed.
End Still.

(** an item whose operand is [n] is no branch *)
Definition no_branch_to (n : text) (it : item) : Prop := it_expr it = Some (Lab n) -> it_mode it <> REL.

Lemma pass1_no_branch : forall n p st f, (forall lab m o, In (SInstr lab m o) (body p) -> is_operand_of o n = true -> is_branch_name m = false) ->
  Forall (no_branch_to n) (p1_items st) -> pass1 AsBuilt st p = Some f -> Forall (no_branch_to n) (p1_items f).
Proof.
  induction p as [|s p IH]; intros st f NB F H; [injection H as <-; exact F|].
  destruct s as [|x|x w|w| |lab m o]; [| | | |cbn in H; injection H as <-; exact F|]; rewrite pass1_cons in H by discriminate;
    match type of H with match ?c with _ => _ end = _ => destruct c as [st1|] eqn:E; [|discriminate] end;
    (apply (IH st1 f); [intros lab0 m0 o0 I; apply (NB lab0); cbn [body]; right; exact I| |exact H]); cbn [pass1_stmt] in E.
  - injection E as <-. exact F.
  - apply define_some in E. destruct E as [_ ->]. exact F.
  - apply define_some in E. destruct E as [_ ->]. exact F.
  - injection E as <-. exact F.
  - destruct (pass1_stmt_instr AsBuilt st lab m o st1 E) as (md & op & size & D & _ & _ & ->). cbn [p1_items]. apply Forall_app. split; [exact F|]. constructor; [|constructor].
    intros X R. cbn [it_expr it_mode] in X, R. subst md. apply denoted_rel in D. destruct D as [D _].
    rewrite (NB lab m o) in D; [discriminate|left; reflexivity|]. unfold is_operand_of. rewrite X. apply text_eqb_refl.
Qed.

Lemma pass2_still : forall n v' e e' its code, Forall (no_branch_to n) its -> (forall k, lookup e' k = if text_eqb n k then Some v' else lookup e k) ->
  pass2 AsBuilt e its = Some code -> exists code', pass2 AsBuilt e' its = Some code'.
Proof.
  intros n v' e e' its code F E. revert code. induction F as [|it its N F IH]; intros code H; [eexists; reflexivity|]. cbn [pass2] in *.
  destruct (encode_operand AsBuilt e it) as [bs|] eqn:Ec; [|discriminate]. destruct (pass2 AsBuilt e its) as [l|]; [|discriminate]. destruct (IH l eq_refl) as (l' & ->).
  assert (K : exists bs', encode_operand AsBuilt e' it = Some bs').
  { unfold encode_operand in *. unfold no_branch_to in N. destruct (it_expr it) as [[w|k]|]; [eauto| |eauto]. cbn [eval] in *. rewrite E. destruct (text_eqb n k) eqn:T; [|eauto].
    apply text_eqb_eq in T. subst k. specialize (N eq_refl). destruct (it_mode it); try congruence; eauto. }
  destruct K as (bs' & ->). eauto.
Qed.

Theorem C93_still : forall file src src' pre n v v' post o,
  program_means src (pre ++ SConst n v :: post) -> program_means src' (pre ++ SConst n v' :: post) -> small src -> small src' -> ~ In SEnd pre ->
  same_sizes post n v v' ->
  (forall lab m op, In (SInstr lab m op) (pre ++ body post) -> is_operand_of op n = true -> is_branch_name m = false) ->
  gaia file src = Ret o -> exit_code o = 0 ->
  exists o', gaia file src' = Ret o' /\ exit_code o' = 0.
Proof.
  intros file src src' pre n v v' post o M M' B B' N0 SS NB G X.
  destruct (success file src _ o M B G X) as (f & c & U & C & _ & _). destruct (C26_as_built file src' _ M' B') as (o' & G' & Ex & _).
  exists o'. split; [exact G'|]. apply Ex. pose proof U as W. unfold pass1_program in W. rewrite pass1_app in W by exact N0.
  destruct (pass1 AsBuilt (mkP1 0 [] []) pre) as [f0|] eqn:E0; [|discriminate]. rewrite pass1_cons in W by discriminate. cbn [pass1_stmt] in W.
  destruct (define f0 n v) as [f1|] eqn:D1; [|discriminate]. apply define_some in D1. destruct D1 as [L0 ->]. rewrite pass1_body in W.
  destruct (pass1_still n v v' (body post) SS (body post) (mkP1 (p1_addr f0) ((n, v) :: p1_env f0) (p1_items f0)) (mkP1 (p1_addr f0) ((n, v') :: p1_env f0) (p1_items f0)) f) as (f' & W' & S').
  - auto.
  - constructor; cbn [p1_addr p1_items p1_env lookup]; rewrite ?text_eqb_refl; auto. intro k. destruct (text_eqb n k); reflexivity.
  - exact W.
  - assert (NI : Forall (no_branch_to n) (p1_items f)).
    { apply (pass1_no_branch n (pre ++ SConst n v :: post) (mkP1 0 [] []) f); [|constructor|exact U]. intros lab m op I. apply (NB lab). rewrite body_app in I by exact N0.
      apply in_app_iff in I. apply in_app_iff. destruct I as [I|[I|I]]; [left; exact I|discriminate I|right; exact I]. }
    destruct (pass2_still n v' (p1_env f) (p1_env f') (p1_items f) c NI (s2_env _ _ _ _ _ S') C) as (c' & C').
    exists c'. unfold reference, pass1_program. rewrite pass1_app, E0, pass1_cons by (exact N0 || discriminate). cbn [pass1_stmt]. unfold define. rewrite L0.
    rewrite pass1_body, W', (s2_items _ _ _ _ _ S'). exact C'.
Qed.

(** the operands D become 12 (and the others stay), no address changes *)
Example C93_case : exists file src src' pre n post fin o o',
  program_means src (pre ++ SConst n 9 :: post) /\ program_means src' (pre ++ SConst n 12 :: post) /\ small src /\ small src' /\
  ~ In SEnd pre /\ same_sizes post n 9 12 /\
  (forall lab m op, In (SInstr lab m op) (pre ++ body post) -> is_operand_of op n = true -> is_branch_name m = false) /\ labels AsBuilt (pre ++ SConst n 9 :: post) = Some fin /\
  gaia file src = Ret o /\ exit_code o = 0 /\ gaia file src' = Ret o' /\ exit_code o' = 0 /\
  binary o = [234; 165; 9; 76; 9; 0; 165; 3; 76; 1; 0; 169; 9] /\
  binary o' = [234; 165; 12; 76; 12; 0; 165; 3; 76; 1; 0; 169; 12].
Proof.
  set (l0 := [T " nop"]). set (l1 := [T "D = 9"]). set (l2 := [T "D = 12"]).
  set (l3 := [T "K lda D"; T "L jmp D"; T " lda L"; T " jmp K"; T " lda #D"]).
  destruct (statements l0) as [pre|] eqn:E0; [|vm_compute in E0; discriminate].
  destruct (statements l3) as [post|] eqn:E3; [|vm_compute in E3; discriminate].
  exists (T "a.asm"), (join (l0 ++ l1 ++ l3)), (join (l0 ++ l2 ++ l3)), pre, (T "D"), post, [(T "L", 3); (T "K", 1); (T "D", 9)].
  vm_compute in E0, E3. injection E0 as <-. injection E3 as <-.
  do 2 eexists. do 2 (split; [apply means_lines; vm_compute; reflexivity|]). do 2 (split; [vm_compute; reflexivity|]).
  split; [intro K; repeat destruct K as [K|K]; (discriminate || exact K)|].
  split; [intros lab m op I O; right; right; lia|].
  split. { intros lab m op I O. cbn in I. repeat destruct I as [I|I]; try contradiction; injection I as <- <- <-; reflexivity. }
  do 6 (split; [vm_compute; reflexivity|]). reflexivity.
Qed.

(** without the condition on the sizes the code changes: lda D is two bytes long with 255 and three with 256 *)
Example C93_crossing : exists file src src' pre n post o o',
  program_means src (pre ++ SConst n 255 :: post) /\ program_means src' (pre ++ SConst n 256 :: post) /\ ~ same_sizes post n 255 256 /\
  gaia file src = Ret o /\ exit_code o = 0 /\ gaia file src' = Ret o' /\ exit_code o' = 0 /\
  binary o = [165; 255; 96] /\ binary o' = [173; 0; 1; 96].
Proof.
  set (l1 := [T "D = 255"]). set (l2 := [T "D = 256"]). set (l3 := [T " lda D"; T " rts"]).
  destruct (statements l3) as [post|] eqn:E3; [|vm_compute in E3; discriminate].
  exists (T "a.asm"), (join (l1 ++ l3)), (join (l2 ++ l3)), [], (T "D"), post.
  vm_compute in E3. injection E3 as <-.
  do 2 eexists. do 2 (split; [apply means_lines; vm_compute; reflexivity|]).
  split. { intro S. specialize (S _ _ _ (or_introl eq_refl) eq_refl). destruct S as [S|[S|S]]; [vm_compute in S; discriminate|vm_compute in S; discriminate|lia]. }
  do 5 (split; [vm_compute; reflexivity|]). reflexivity.
Qed.

(** a branch may get out of reach *)
Example C93_branch : exists file src src' pre n post o o',
  program_means src (pre ++ SConst n 100 :: post) /\ program_means src' (pre ++ SConst n 200 :: post) /\ small src /\ small src' /\ ~ In SEnd pre /\ same_sizes post n 100 200 /\
  gaia file src = Ret o /\ exit_code o = 0 /\ gaia file src' = Ret o' /\ exit_code o' = 1.
Proof.
  set (l1 := [T "D = 100"]). set (l2 := [T "D = 200"]). set (l3 := [T " beq D"]).
  destruct (statements l3) as [post|] eqn:E3; [|vm_compute in E3; discriminate].
  exists (T "a.asm"), (join (l1 ++ l3)), (join (l2 ++ l3)), [], (T "D"), post.
  vm_compute in E3. injection E3 as <-.
  do 2 eexists. do 2 (split; [apply means_lines; vm_compute; reflexivity|]). do 2 (split; [vm_compute; reflexivity|]). split; [intros []|].
  split; [intros lab m op I O; right; right; lia|].
  do 3 (split; [vm_compute; reflexivity|]). reflexivity.
Qed.
