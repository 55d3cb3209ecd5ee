(** Prop_Reach.v -- C95: after code has been inserted or removed, only a branch can be wrong, by its distance. *)
From Verif Require Import Base Proof_Base Model_Main Spec_Isa Spec_Text Spec_Asm Spec_Diag Spec_Prog Spec_Report Spec_Edit Spec_Shift
  Proof_Core Proof_Modes Proof_Diag Proof_Ref Proof_Decimal Proof_Sim2 Proof_Image Proof_Kept Proof_Prog Proof_Check Proof_Place Proof_Rewrite Proof_Reloc
  Prop_Program Prop_Edit Prop_Blame Prop_Supply Prop_Move Prop_Code Prop_Shift Prop_Const.

(** the statement is a branch to a label, and its item cannot be encoded *)
Definition lost (e : env) (its : list item) (l : text) : Prop := exists it, In it its /\ it_expr it = Some (Lab l) /\ hopeless AsBuilt e it.
Definition label_branch (f : pass1_state) (s : stmt) : Prop := exists lab m l, s = SInstr lab m (ODir (Lab l)) /\ is_branch_name m = true /\ lost (p1_env f) (p1_items f) l.

Lemma lost_extends : forall r p st f s, pass1 r st p = Some f -> r = AsBuilt -> label_branch st s -> label_branch f s.
Proof.
  intros r p st f s P -> (lab & m & l & -> & B & it & I & X & H). destruct (pass1_extends _ _ _ _ P) as [(more & Em) Ex].
  exists lab, m, l. split; [reflexivity|]. split; [exact B|]. exists it. split; [rewrite Em; apply in_or_app; left; exact I|]. split; [exact X|].
  split; [eapply hopeless_extends; eauto|]. destruct H as [_ (x & v & H1 & H2)]. rewrite X in H1. injection H1 as <-. exists (Lab l), v. split; [exact X|]. apply Ex. exact H2.
Qed.

Lemma encode_fails : forall e a m md op size o x v, denoted_mode m o v = Some md -> operand_expr o = Some x -> eval e x <> None ->
  encode_operand AsBuilt e (mkItem a m md op size (operand_expr o)) = None -> is_branch_name m = true /\ exists l, o = ODir (Lab l).
Proof.
  intros e a m md op size o x v D O V E. unfold encode_operand in E. cbn [it_expr it_mode it_addr] in E. rewrite O in E.
  destruct (eval e x) as [u|]; [|congruence]. destruct md; try discriminate. destruct (denoted_rel _ _ _ D) as (B & y & ->).
  cbn [operand_expr] in O. injection O as ->. split; [exact B|]. destruct x as [w|l]; [destruct (u <=? 255); discriminate|eauto].
Qed.

Lemma stmt_fails : forall n st s f m w, pass1_stmt AsBuilt (p1_of st) s = Some f -> diag_stmt AsBuilt n st s = inr (m, w) ->
  m = "branch offset too far away"%string /\ label_branch f s.
Proof.
  intros n st s f m w P H.
  assert (I : forall st m0 o f, pass1_instr AsBuilt (p1_of st) m0 o = Some f -> diag_instr AsBuilt n st m0 o = inr (m, w) ->
    m = "branch offset too far away"%string /\ is_branch_name m0 = true /\ exists l, o = ODir (Lab l) /\ lost (p1_env f) (p1_items f) l).
  { intros st0 m0 o f0 P0 H0. unfold pass1_instr in P0. cbn [p1_of p1_env p1_addr p1_items] in P0. fold (value_of (d_env st0) o) in P0. unfold diag_instr in H0.
    destruct (denoted_mode m0 o (value_of (d_env st0) o)) as [md|] eqn:D; [|discriminate].
    destruct (has_mode AsBuilt m0 md _) as [[op size]|]; [|discriminate].
    destruct (unresolved (d_env st0) o) eqn:U.
    - exfalso. unfold unresolved in U. destruct (operand_expr o) as [[u|l]|] eqn:O; try discriminate. destruct (lookup (d_env st0) l) eqn:L; [discriminate|].
      assert (V : value_of (d_env st0) o = None) by (unfold value_of; rewrite O; exact L). rewrite V in D. unfold denoted_mode in D.
      destruct (is_branch_name m0); [cbn [orb negb andb] in H0; discriminate|]. destruct (is_jump_name m0); [cbn [orb negb andb] in H0; discriminate|].
      destruct o; discriminate.
    - cbn [andb] in H0. destruct (encode_operand AsBuilt (d_env st0) _) as [bs|] eqn:E; [discriminate|]. injection H0 as <- _. split; [reflexivity|].
      destruct (operand_expr o) as [x|] eqn:O; [|discriminate E]. rewrite <- O in E.
      assert (V : eval (d_env st0) x <> None) by (unfold unresolved in U; rewrite O in U; destruct x as [u|l]; cbn [eval]; [discriminate|]; destruct (lookup (d_env st0) l); discriminate).
      destruct (encode_fails (d_env st0) (d_addr st0) m0 md op size o x _ D O V E) as (Br & l & ->). split; [exact Br|]. exists l. split; [reflexivity|].
      injection P0 as <-. eexists. cbn [p1_items p1_env]. split; [apply in_or_app; right; left; reflexivity|]. cbn [operand_expr] in O. injection O as <-.
      split; [reflexivity|]. split; [exact E|]. destruct (eval (d_env st0) (Lab l)) as [v|] eqn:Ev; [|congruence]. exists (Lab l), v. split; [reflexivity|exact Ev]. }
  destruct s as [|l|l v|v| |[l|] m0 o]; cbn [pass1_stmt diag_stmt] in *; try discriminate;
    try (unfold define in P; cbn [p1_of p1_env p1_addr p1_items] in P; destruct (lookup (d_env st) l); discriminate).
  - unfold define in P. cbn [p1_of p1_env p1_addr p1_items] in P. destruct (lookup (d_env st) l); [discriminate|].
    destruct (I (d_define st l (d_addr st)) m0 o f P H) as (E & B & k & -> & Lo). split; [exact E|]. exists (Some l), m0, k. auto.
  - destruct (I st m0 o f P H) as (E & B & k & -> & Lo). split; [exact E|]. exists None, m0, k. auto.
Qed.

Lemma program_fails : forall p n st f k m w, Forall (sound_placed AsBuilt (d_env st)) (d_done st) -> pass1 AsBuilt (p1_of st) p = Some f ->
  diag_from AsBuilt n st p = DError k m w ->
  (m = "branch offset too far away"%string /\ n <= k /\ exists s, nth_error (body p) (Z.to_nat (k - n)) = Some s /\ label_branch f s) \/
  exists st', accepts AsBuilt n st (body p) = Some st' /\ f = p1_of st' /\ complete AsBuilt (d_env st') (d_done st') = inr (k, m).
Proof.
  assert (C : forall st k m w, d_close AsBuilt st = DError k m w -> complete AsBuilt (d_env st) (d_done st) = inr (k, m)).
  { intros st k m w H. unfold d_close in H. destruct (complete AsBuilt (d_env st) (d_done st)) as [c|[? ?]]; [discriminate|]. injection H as -> -> _. reflexivity. }
  induction p as [|s p IH]; intros n st f k m w S P H.
  - right. exists st. injection P as <-. split; [reflexivity|]. split; [reflexivity|]. eapply C; exact H.
  - assert (s = SEnd \/ s <> SEnd) as [-> |N] by (destruct s; auto; right; discriminate).
    + right. exists st. cbn [pass1] in P. injection P as <-. split; [reflexivity|]. split; [reflexivity|]. eapply C; exact H.
    + replace (body (s :: p)) with (s :: body p) by (destruct s; congruence || reflexivity).
      rewrite accepts_step by exact N. rewrite diag_step in H by exact N. rewrite pass1_cons in P by exact N.
      pose proof (diag_stmt_ref AsBuilt n st s S) as R.
      destruct (diag_stmt AsBuilt n st s) as [s1|[m' w']] eqn:E.
      * destruct R as [R1 R2]. rewrite R1 in P. destruct (IH (n + 1) s1 f k m w R2 P H) as [(A & B & s' & D & F)|Q]; [left|right; exact Q].
        split; [exact A|]. split; [lia|]. exists s'. split; [|exact F]. replace (Z.to_nat (k - n)) with (Datatypes.S (Z.to_nat (k - (n + 1)))) by lia. exact D.
      * injection H as <- <- <-. left. destruct (pass1_stmt AsBuilt (p1_of st) s) as [f1|] eqn:E1; [|discriminate].
        destruct (stmt_fails _ _ _ _ _ _ E1 E) as [A B]. split; [exact A|]. split; [lia|]. exists s. rewrite Z.sub_diag. split; [reflexivity|]. eapply lost_extends; [exact P|reflexivity|exact B].
Qed.

(** ** the general statement: if every statement has its place and every label used is defined, only a branch can be wrong *)
Lemma reach_item : forall file src p f, program_means src p -> small src -> pass1_program AsBuilt p = Some f ->
  (forall n, uses p n -> lookup (p1_env f) n <> None) ->
  exists o, gaia file src = Ret o /\
    (exit_code o = 0 \/
     exists k lab m l line pos, nth_error (body p) k = Some (SInstr lab m (ODir (Lab l))) /\ is_branch_name m = true /\
       Report file (1 + Z.of_nat k) "branch offset too far away" line pos (stdout o) /\ lost (p1_env f) (p1_items f) l).
Proof.
  intros file src p f M B P Us.
  destruct (program_cases file src _ M B) as [(s1 & c1 & b1 & D & _ & _ & _ & G1 & _)|(k & m & w & o1 & lines & ln & toks & D & _ & G1 & _ & _ & _ & _ & _ & R)].
  { eexists. split; [exact G1|]. left. reflexivity. }
  exists o1. split; [exact G1|]. right. unfold diagnose in D.
  destruct (program_fails p 1 (mkD 0 [] []) f k m w (Forall_nil _) P D) as [(-> & Lk & s & K & lab & mn & l & -> & Br & Lo)|(st & A & Ef & C)].
  - eexists _, lab, mn, l, _, _. split; [exact K|]. split; [exact Br|]. replace (1 + Z.of_nat (Z.to_nat (k - 1))) with k by lia. split; [exact R|exact Lo].
  - destruct (complete_error _ _ _ _ C) as (it & I & L & En & Em). pose proof I as I0.
    destruct (accepts_origin _ _ _ _ A) as (more & Dm & Or). cbn [d_done app] in Dm. rewrite Dm in I.
    rewrite Forall_forall in Or. destruct (Or _ I) as (lab & mn & op & Nth & Ge & X & Rel). pose proof En as En0.
    unfold encode_operand in En. rewrite X in En, Em. destruct (operand_expr op) as [x|] eqn:Ox; [|discriminate].
    assert (exists v, eval (d_env st) x = Some v) as (v & Ev).
    { destruct x as [v|l]; [eexists; reflexivity|]. cbn [eval]. assert (U : uses p l) by (exists lab, mn, op; split; [eapply nth_error_In; exact Nth|exact Ox]).
      specialize (Us l U). rewrite Ef in Us. cbn [p1_of p1_env] in Us. destruct (lookup (d_env st) l) as [v|]; [eauto|congruence]. }
    rewrite Ev in En, Em. subst m.
    destruct (it_mode (pl_item it)) eqn:Md; try discriminate. destruct (Rel eq_refl) as (Br & y & ->). cbn [operand_expr] in Ox. injection Ox as ->.
    destruct x as [u|l]; [destruct (v <=? 255); discriminate|].
    exists (Z.to_nat (pl_line it - 1)), lab, mn, l, (before_nul ln), (place_offset toks w).
    split; [exact Nth|]. split; [exact Br|]. replace (1 + Z.of_nat (Z.to_nat (pl_line it - 1))) with k by lia. split; [exact R|].
    rewrite Ef. cbn [p1_of p1_env p1_items]. exists (pl_item it). split; [apply in_map; exact I0|]. split; [exact X|]. split; [exact En0|]. exists (Lab l), v. auto.
Qed.

Theorem C95_reach : forall file src p fin, program_means src p -> small src -> labels AsBuilt p = Some fin ->
  (forall n, uses p n -> lookup fin n <> None) ->
  exists o, gaia file src = Ret o /\
    (exit_code o = 0 \/
     exists k lab m l line pos, nth_error (body p) k = Some (SInstr lab m (ODir (Lab l))) /\ is_branch_name m = true /\
       Report file (1 + Z.of_nat k) "branch offset too far away" line pos (stdout o)).
Proof.
  intros file src p fin M B F Us. unfold labels in F. destruct (pass1_program AsBuilt p) as [f|] eqn:P; [|discriminate]. injection F as <-.
  destruct (reach_item file src p f M B P Us) as (o & G & [X|(k & lab & m & l & line & pos & K & Br & R & _)]); exists o; (split; [exact G|]); [left; exact X|right].
  exists k, lab, m, l, line, pos. auto.
Qed.

(** ** it is assembled exactly when every branch to a label reaches it *)
Lemma items_origin : forall p st f it, ~ In SEnd p -> pass1 AsBuilt st p = Some f -> In it (p1_items f) ->
  In it (p1_items st) \/
  exists j lab m o g, nth_error p j = Some (SInstr lab m o) /\ pass1 AsBuilt st (firstn j p) = Some g /\ it_addr it = p1_addr g /\
    it_expr it = operand_expr o /\ (it_mode it = REL -> is_branch_name m = true /\ exists x, o = ODir x).
Proof.
  induction p as [|s p IH]; intros st f it N P I.
  - injection P as <-. left. exact I.
  - assert (Ns : s <> SEnd) by (intros ->; apply N; left; reflexivity).
    rewrite pass1_cons in P by exact Ns. destruct (pass1_stmt AsBuilt st s) as [s1|] eqn:E; [|discriminate].
    destruct (IH s1 f it (fun K => N (or_intror K)) P I) as [I1|(j & lab & m & o & g & K & G & Rest)].
    2:{ right. exists (Datatypes.S j), lab, m, o, g. split; [exact K|]. split; [|exact Rest]. cbn [firstn]. rewrite pass1_cons, E by exact Ns. exact G. }
    assert (Q : forall s0 m o, pass1_instr AsBuilt s0 m o = Some s1 -> In it (p1_items s0) \/
      (it_addr it = p1_addr s0 /\ it_expr it = operand_expr o /\ (it_mode it = REL -> is_branch_name m = true /\ exists x, o = ODir x))).
    { intros s0 m o H. unfold pass1_instr in H. destruct (denoted_mode m o _) as [md|] eqn:D; [|discriminate]. destruct (has_mode AsBuilt m md _) as [[op size]|]; [|discriminate].
      injection H as <-. cbn [p1_items] in I1. apply in_app_iff in I1. destruct I1 as [I1|[<- |[]]]; [left; exact I1|right]. cbn.
      split; [reflexivity|]. split; [reflexivity|]. intros ->. eapply denoted_rel; exact D. }
    destruct s as [|l|l v|v| |[l|] m o]; cbn [pass1_stmt] in E; try (apply define_some in E; destruct E as [_ ->]; left; exact I1); try (injection E as <-; left; exact I1).
    + destruct (define st l (p1_addr st)) as [s0|] eqn:D; [|discriminate]. apply define_some in D. destruct D as [_ ->].
      destruct (Q _ _ _ E) as [H|H]; [left; exact H|right]. exists O, (Some l), m, o, st. split; [reflexivity|]. split; [reflexivity|exact H].
    + destruct (Q _ _ _ E) as [H|H]; [left; exact H|right]. exists O, None, m, o, st. split; [reflexivity|]. split; [reflexivity|exact H].
Qed.

Theorem C95_exactly : forall file src p fin, program_means src p -> small src -> labels AsBuilt p = Some fin ->
  (forall n, uses p n -> lookup fin n <> None) ->
  exists o, gaia file src = Ret o /\
    (exit_code o = 0 <->
     forall k lab m l a v, nth_error (body p) k = Some (SInstr lab m (ODir (Lab l))) -> is_branch_name m = true ->
       address AsBuilt p k = Some a -> lookup fin l = Some v -> -128 <= v - (a + 2) <= 127).
Proof.
  intros file src p fin M B F Us. unfold labels in F. destruct (pass1_program AsBuilt p) as [f|] eqn:P; [|discriminate]. injection F as <-.
  destruct (reach_item file src p f M B P Us) as (o & G & H). exists o. split; [exact G|]. split.
  - intros X k lab m l a v K Br Ad L. destruct (success file src p o M B G X) as (f0 & c & U & V & _). rewrite P in U. injection U as <-.
    assert (Rf : reference AsBuilt p = Some c) by (unfold reference; rewrite P; exact V).
    destruct (instr_piece _ _ _ _ _ _ _ Rf K) as (a' & e & g & md & opc & size & bs & L1 & _ & L3 & _ & D & _ & En & _).
    rewrite Ad in L1. injection L1 as <-. unfold labels in L3. rewrite P in L3. injection L3 as <-.
    assert (md = REL) as -> by (unfold denoted_mode in D; rewrite Br in D; injection D as <-; reflexivity).
    unfold encode_operand in En. cbn [it_expr it_mode it_addr operand_expr eval] in En. rewrite L in En. cbv zeta in En.
    destruct ((-128 <=? v - (a + 2)) && (v - (a + 2) <=? 127)) eqn:Q; [|discriminate]. apply andb_true_iff in Q. destruct Q as [Q1 Q2].
    apply Z.leb_le in Q1. apply Z.leb_le in Q2. lia.
  - intro R. destruct H as [X|(_ & _ & _ & l & _ & _ & _ & _ & _ & it & I & Ex & En & _)]; [exact X|]. exfalso.
    pose proof P as P0. unfold pass1_program in P0. rewrite pass1_body in P0.
    destruct (items_origin (body p) _ f it (body_no_end p) P0 I) as [[]|(j & lab & m & op & g & K & Gg & A & E & Rl)].
    unfold encode_operand in En. rewrite Ex in En. cbn [eval] in En.
    destruct (lookup (p1_env f) l) as [v|] eqn:L.
    2:{ apply (Us l); [|exact L]. exists lab, m, op. split; [eapply nth_error_In; exact K|congruence]. }
    destruct (it_mode it); try discriminate En. destruct (Rl eq_refl) as (Br & x & ->). rewrite E in Ex. cbn [operand_expr] in Ex. injection Ex as ->.
    assert (Ad : address AsBuilt p j = Some (p1_addr g)) by (unfold address, pass1_program; rewrite Gg; reflexivity).
    pose proof (R j lab m l _ v K Br Ad L) as D. rewrite A in En. cbv zeta in En.
    rewrite (proj2 (Z.leb_le _ _)), (proj2 (Z.leb_le _ _)) in En by lia. discriminate En.
Qed.

(** ** and for a replaced part *)
Lemma insert_placed : forall file src src' pre mid mid' post b b' e e' fin o,
  program_means src (pre ++ mid ++ post) -> program_means src' (pre ++ mid' ++ post) -> small src -> small src' ->
  ~ In SEnd pre -> ~ In SEnd mid -> ~ In SEnd mid' ->
  address AsBuilt (pre ++ mid) (List.length (pre ++ mid)) = Some b -> address AsBuilt (pre ++ mid') (List.length (pre ++ mid')) = Some b' ->
  labels AsBuilt (pre ++ mid) = Some e -> labels AsBuilt (pre ++ mid') = Some e' ->
  (forall n, uses pre n \/ uses post n -> lookup e' n = lookup e n) ->
  (* the new part does not define a label of the rest, and its own labels are defined somewhere *)
  (forall s n, In s (body post) -> defines s = Some n -> lookup e' n = None) ->
  (forall n, uses mid' n -> exists s, In s (pre ++ mid' ++ body post) /\ defines s = Some n) ->
  labels AsBuilt (pre ++ mid ++ post) = Some fin -> keeps_size post fin (b' - b) ->
  gaia file src = Ret o -> exit_code o = 0 ->
  exists fin', labels AsBuilt (pre ++ mid' ++ post) = Some fin' /\ (forall n, uses (pre ++ mid' ++ post) n -> lookup fin' n <> None) /\
    (forall n, uses pre n \/ uses post n -> lookup fin' n = option_map (fun v => v + label_shift post (b' - b) n) (lookup fin n)) /\
    (forall j, (j <= List.length pre)%nat -> address AsBuilt (pre ++ mid' ++ post) j = address AsBuilt (pre ++ mid ++ post) j) /\
    (forall j, exists a, address AsBuilt (pre ++ mid ++ post) (List.length (pre ++ mid) + j) = Some a /\
       address AsBuilt (pre ++ mid' ++ post) (List.length (pre ++ mid') + j) = Some (a + place_shift post (b' - b) j)).
Proof.
  intros file src src' pre mid mid' post b b' e e' fin o M M' B B' N0 N1 N2 Hb Hb' He He' Ee Fresh Us Hf KS G X.
  assert (N01 : ~ In SEnd (pre ++ mid)) by (intro K; apply in_app_or in K; tauto).
  assert (N02 : ~ In SEnd (pre ++ mid')) by (intro K; apply in_app_or in K; tauto).
  unfold address in Hb, Hb'. rewrite body_id, firstn_all in Hb by exact N01. rewrite body_id, firstn_all in Hb' by exact N02.
  unfold labels in He, He'. destruct (pass1_program AsBuilt (pre ++ mid)) as [f1|] eqn:E1; [|discriminate]. injection Hb as Hb. injection He as He.
  destruct (pass1_program AsBuilt (pre ++ mid')) as [f2|] eqn:E2; [|discriminate]. injection Hb' as Hb'. injection He' as He'. subst e e'.
  destruct (success file src _ o M B G X) as (f & c & U & V & _ & _).
  assert (F : p1_env f = fin) by (unfold labels in Hf; rewrite U in Hf; injection Hf as <-; reflexivity).
  pose proof U as W. unfold pass1_program in W. rewrite app_assoc, pass1_app in W by exact N01.
  pose proof E1 as E1p. pose proof E2 as E2p. unfold pass1_program in E1, E2. rewrite E1 in W. rewrite pass1_body in W.
  set (q := body post) in *. set (d := b' - b) in *.
  assert (Nq : ~ In SEnd q) by apply body_no_end.
  assert (Mq : moving q = moving post) by apply moving_body.
  assert (Once : forall s s' n, In s q -> In s' q -> defines s = Some n -> defines s' = Some n -> s = s') by (eapply defined_once; eauto).
  set (watched := seen_outside pre post).
  assert (Used : forall lab m o n, In (SInstr lab m o) q -> operand_expr o = Some (Lab n) -> watched n).
  { intros lab m op n I O. right. left. exists lab, m, op. auto. }
  assert (Named : forall s n, In s q -> defines s = Some n -> watched n) by (intros s n I D; right; right; eauto).
  assert (Side : forall lab m o n v, In (SInstr lab m o) q -> operand_expr o = Some (Lab n) ->
    is_branch_name m = false -> is_jump_name m = false -> In n (moving q) -> lookup fin n = Some v -> (v <= 0xFF <-> v + d <= 0xFF)).
  { intros lab m op n v I O Br J K. rewrite Mq in K. eapply KS; eauto. }
  assert (New : forall s n, In s q -> defines s = Some n -> lookup (p1_env f1) n = None /\ lookup (p1_env f2) n = None).
  { intros s n I D. split; [|eapply Fresh; eauto].
    destruct (lookup (p1_env f1) n) eqn:L; [|reflexivity]. destruct (pass1_no_redefine _ _ _ _ _ _ Nq W L s I D). }
  assert (R0 : beside q d watched [] f1 f2).
  { constructor; cbn [existsb moving].
    - unfold d. lia.
    - intros n Wn. destruct Wn as [Wn|[Wn|(s & I & D)]].
      3:{ destruct (New _ _ I D) as [-> ->]. reflexivity. }
      all: rewrite Ee by auto; destruct (in_dec (fun a b : text => ltac:(repeat decide equality)) n (moving q)) as [I|I];
        [destruct (moving_in _ _ I) as (s & J & D & _); destruct (New _ _ J D) as [-> _]; reflexivity|];
        rewrite shift_out by exact I; destruct (lookup (p1_env f1) n); cbn [option_map]; [rewrite Z.add_0_r|]; reflexivity.
    - intros n []. }
  assert (Ext : forall n v, lookup (p1_env f) n = Some v -> lookup fin n = Some v) by (intros n v; rewrite F; auto).
  destruct (pass1_next q d watched fin Nq Once Used Side q [] f1 f2 f Named eq_refl R0 W Ext) as (f' & W').
  pose proof (beside_all q d watched fin Nq Once Used Side q [] f1 f2 f f' eq_refl R0 W W' Ext (List.length q)) as All. cbn [app] in All. rewrite firstn_all in All.
  destruct All as (sk & sk' & A1 & A2 & A3). rewrite W in A1. injection A1 as <-. rewrite W' in A2. injection A2 as <-.
  assert (U' : pass1_program AsBuilt (pre ++ mid' ++ post) = Some f').
  { unfold pass1_program. rewrite app_assoc, pass1_app by exact N02. rewrite E2, pass1_body. exact W'. }
  exists (p1_env f'). split; [unfold labels; rewrite U'; reflexivity|].
  split; [|split; [|split]].
  2:{ intros n Un. assert (Wn : watched n) by (unfold watched, seen_outside; tauto).
    rewrite (be_env _ _ _ _ _ _ A3 n Wn), F. unfold label_shift, q. rewrite moving_body. reflexivity. }
  2:{ intros j J. unfold address. rewrite (body_app pre (mid' ++ post) N0), (body_app pre (mid ++ post) N0), !firstn_app. replace (j - List.length pre)%nat with O by lia. rewrite !firstn_O, !app_nil_r. reflexivity. }
  2:{ intro j. destruct (beside_all q d watched fin Nq Once Used Side q [] f1 f2 f f' eq_refl R0 W W' Ext j) as (sk & sk' & A1 & A2 & A4). cbn [app] in A4.
    exists (p1_addr sk). unfold address. rewrite (app_assoc pre mid post), (app_assoc pre mid' post), (body_app _ post N01), (body_app _ post N02). fold q. rewrite (firstn_app _ (pre ++ mid)), (firstn_app _ (pre ++ mid')).
    rewrite (@firstn_all2 _ _ (pre ++ mid)), (@firstn_all2 _ _ (pre ++ mid')) by lia. replace (List.length (pre ++ mid) + j - List.length (pre ++ mid))%nat with j by lia.
    replace (List.length (pre ++ mid') + j - List.length (pre ++ mid'))%nat with j by lia.
    unfold pass1_program. rewrite (pass1_app _ (pre ++ mid)), E1, (pass1_app _ (pre ++ mid')), E2 by assumption. rewrite A1, A2. split; [reflexivity|].
    cbn [option_map]. f_equal. rewrite (be_addr _ _ _ _ _ _ A4). reflexivity. }
  assert (Old : forall n, uses (pre ++ mid ++ post) n -> lookup fin n <> None).
  { intros n (lab & m & op & I & O). apply In_nth_error in I. destruct I as (k & K).
    assert (Rf : reference AsBuilt (pre ++ mid ++ post) = Some c) by (unfold reference; rewrite U; exact V).
    destruct (instr_piece _ _ _ _ _ _ _ Rf K) as (a & e & g & md & opc & size & bs & _ & _ & L3 & _ & _ & _ & En & _).
    rewrite Hf in L3. injection L3 as <-. unfold encode_operand in En. cbn [it_expr] in En. rewrite O in En. cbn [eval] in En. destruct (lookup fin n); [discriminate|discriminate En]. }
  intros n (lab & m & op & I & O). rewrite app_assoc, body_app in I by exact N02. apply in_app_iff in I. rewrite in_app_iff in I.
  assert (Wt : watched n -> uses (pre ++ mid ++ post) n -> lookup (p1_env f') n <> None).
  { intros Wn Un. rewrite (be_env _ _ _ _ _ _ A3 n Wn), F. specialize (Old n Un). destruct (lookup fin n); [discriminate|congruence]. }
  destruct I as [[I|I]|I].
  - apply Wt; [left; exists lab, m, op; rewrite body_id by exact N0; auto|]. exists lab, m, op. rewrite body_app by exact N0. split; [apply in_or_app; left; exact I|exact O].
  - destruct (Us n) as (s & J & D); [exists lab, m, op; rewrite body_id by exact N2; auto|].
    assert (Nall : ~ In SEnd (pre ++ mid' ++ q)) by (rewrite app_assoc; intro K; apply in_app_or in K; tauto).
    assert (P2 : pass1 AsBuilt (mkP1 0 [] []) (pre ++ mid' ++ q) = Some f') by (rewrite app_assoc, pass1_app, E2 by exact N02; exact W').
    destruct (pass1_env AsBuilt _ _ _ Nall P2) as [_ Q]. destruct (proj2 (Q n)) as (v & L); [right; eauto|]. rewrite L. discriminate.
  - apply Wt; [eapply Used; eauto|]. exists lab, m, op. rewrite app_assoc, body_app by exact N01. split; [apply in_or_app; right; exact I|exact O].
Qed.

Theorem C95_insert : forall file src src' pre mid mid' post b b' e e' fin o,
  program_means src (pre ++ mid ++ post) -> program_means src' (pre ++ mid' ++ post) -> small src -> small src' ->
  ~ In SEnd pre -> ~ In SEnd mid -> ~ In SEnd mid' ->
  address AsBuilt (pre ++ mid) (List.length (pre ++ mid)) = Some b -> address AsBuilt (pre ++ mid') (List.length (pre ++ mid')) = Some b' ->
  labels AsBuilt (pre ++ mid) = Some e -> labels AsBuilt (pre ++ mid') = Some e' ->
  (forall n, uses pre n \/ uses post n -> lookup e' n = lookup e n) ->
  (* the new part does not define a label of the rest, and its own labels are defined somewhere *)
  (forall s n, In s (body post) -> defines s = Some n -> lookup e' n = None) ->
  (forall n, uses mid' n -> exists s, In s (pre ++ mid' ++ body post) /\ defines s = Some n) ->
  labels AsBuilt (pre ++ mid ++ post) = Some fin -> keeps_size post fin (b' - b) ->
  gaia file src = Ret o -> exit_code o = 0 ->
  exists o', gaia file src' = Ret o' /\
    (exit_code o' = 0 \/
     exists k lab m l line pos, nth_error (body (pre ++ mid' ++ post)) k = Some (SInstr lab m (ODir (Lab l))) /\ is_branch_name m = true /\
       Report file (1 + Z.of_nat k) "branch offset too far away" line pos (stdout o')).
Proof.
  intros file src src' pre mid mid' post b b' e e' fin o M M' B B' N0 N1 N2 Hb Hb' He He' Ee Fresh Us Hf KS G X.
  destruct (insert_placed file src src' pre mid mid' post b b' e e' fin o M M' B B' N0 N1 N2 Hb Hb' He He' Ee Fresh Us Hf KS G X) as (fin' & L & D & _). exact (C95_reach file src' _ fin' M' B' L D).
Qed.

(** and it is assembled exactly when the branches of the new part reach their labels, and those around it do at their new distances *)
Theorem C95_crossing : forall file src src' pre mid mid' post b b' e e' fin o,
  program_means src (pre ++ mid ++ post) -> program_means src' (pre ++ mid' ++ post) -> small src -> small src' ->
  ~ In SEnd pre -> ~ In SEnd mid -> ~ In SEnd mid' ->
  address AsBuilt (pre ++ mid) (List.length (pre ++ mid)) = Some b -> address AsBuilt (pre ++ mid') (List.length (pre ++ mid')) = Some b' ->
  labels AsBuilt (pre ++ mid) = Some e -> labels AsBuilt (pre ++ mid') = Some e' ->
  (forall n, uses pre n \/ uses post n -> lookup e' n = lookup e n) ->
  (* the new part does not define a label of the rest, and its own labels are defined somewhere *)
  (forall s n, In s (body post) -> defines s = Some n -> lookup e' n = None) ->
  (forall n, uses mid' n -> exists s, In s (pre ++ mid' ++ body post) /\ defines s = Some n) ->
  labels AsBuilt (pre ++ mid ++ post) = Some fin -> keeps_size post fin (b' - b) ->
  gaia file src = Ret o -> exit_code o = 0 ->
  exists o' fin', gaia file src' = Ret o' /\ labels AsBuilt (pre ++ mid' ++ post) = Some fin' /\
    (exit_code o' = 0 <->
     (forall j lab m l a v, nth_error mid' j = Some (SInstr lab m (ODir (Lab l))) -> is_branch_name m = true ->
        address AsBuilt (pre ++ mid' ++ post) (List.length pre + j) = Some a -> lookup fin' l = Some v -> -128 <= v - (a + 2) <= 127) /\
     (forall j lab m l a v, nth_error pre j = Some (SInstr lab m (ODir (Lab l))) -> is_branch_name m = true ->
        address AsBuilt (pre ++ mid ++ post) j = Some a -> lookup fin l = Some v ->
        -128 <= v - (a + 2) + label_shift post (b' - b) l <= 127) /\
     (forall j lab m l a v, nth_error (body post) j = Some (SInstr lab m (ODir (Lab l))) -> is_branch_name m = true ->
        address AsBuilt (pre ++ mid ++ post) (List.length (pre ++ mid) + j) = Some a -> lookup fin l = Some v ->
        -128 <= v - (a + 2) + label_shift post (b' - b) l - place_shift post (b' - b) j <= 127)).
Proof.
  intros file src src' pre mid mid' post b b' e e' fin o M M' B B' N0 N1 N2 Hb Hb' He He' Ee Fresh Us Hf KS G X.
  destruct (insert_placed file src src' pre mid mid' post b b' e e' fin o M M' B B' N0 N1 N2 Hb Hb' He He' Ee Fresh Us Hf KS G X) as (fin' & L & D & V & A1 & A2).
  destruct (C95_exactly file src' _ fin' M' B' L D) as (o' & G' & Q). exists o', fin'. split; [exact G'|]. split; [exact L|]. rewrite Q. clear Q.
  assert (N02 : ~ In SEnd (pre ++ mid')) by (intro K; apply in_app_or in K; tauto).
  assert (Bd : body (pre ++ mid' ++ post) = pre ++ mid' ++ body post) by (rewrite app_assoc, body_app, <- app_assoc by exact N02; reflexivity).
  assert (Up : forall j lab m l, nth_error pre j = Some (SInstr lab m (ODir (Lab l))) -> uses pre l \/ uses post l).
  { intros j lab m l K. left. exists lab, m, (ODir (Lab l)). rewrite body_id by exact N0. split; [eapply nth_error_In; exact K|reflexivity]. }
  assert (Uq : forall j lab m l, nth_error (body post) j = Some (SInstr lab m (ODir (Lab l))) -> uses pre l \/ uses post l).
  { intros j lab m l K. right. exists lab, m, (ODir (Lab l)). split; [eapply nth_error_In; exact K|reflexivity]. }
  assert (Lt : forall (x : list stmt) j s, nth_error x j = Some s -> (j < List.length x)%nat) by (intros x j s K; apply nth_error_Some; congruence).
  split.
  - intro R. split; [|split].
    + intros j lab m l a v K Br Ad Lk. apply (R (List.length pre + j)%nat lab m l a v); auto.
      rewrite Bd, nth_error_app2, nth_error_app1 by (apply Lt in K; lia). replace (List.length pre + j - List.length pre)%nat with j by lia. exact K.
    + intros j lab m l a v K Br Ad Lk. pose proof (Lt _ _ _ K) as J.
      enough (-128 <= v + label_shift post (b' - b) l - (a + 2) <= 127) by lia.
      apply (R j lab m l a); [rewrite Bd, nth_error_app1 by exact J; exact K|exact Br|rewrite A1 by lia; exact Ad|]. rewrite (V l (Up _ _ _ _ K)), Lk. reflexivity.
    + intros j lab m l a v K Br Ad Lk. destruct (A2 j) as (a0 & H1 & H2). rewrite Ad in H1. injection H1 as <-.
      enough (-128 <= v + label_shift post (b' - b) l - (a + place_shift post (b' - b) j + 2) <= 127) by lia.
      apply (R _ lab m l _ _) with (3 := H2); [|exact Br|rewrite (V l (Uq _ _ _ _ K)), Lk; reflexivity].
      rewrite Bd, app_assoc, nth_error_app2 by lia. replace (List.length (pre ++ mid') + j - List.length (pre ++ mid'))%nat with j by lia. exact K.
  - intros (R1 & R2 & R3) k lab m l a v K Br Ad Lk. rewrite Bd in K.
    destruct (Nat.lt_ge_cases k (List.length pre)) as [H|H].
    { rewrite nth_error_app1 in K by exact H. rewrite A1 in Ad by lia. rewrite (V l (Up _ _ _ _ K)) in Lk. destruct (lookup fin l) as [u|] eqn:E; [|discriminate]. injection Lk as <-.
      specialize (R2 k lab m l a u K Br Ad E). lia. }
    destruct (Nat.lt_ge_cases k (List.length (pre ++ mid'))) as [H'|H'].
    { rewrite app_length in H'. rewrite nth_error_app2, nth_error_app1 in K by lia. apply (R1 (k - List.length pre)%nat lab m l a v K Br); [|exact Lk].
      replace (List.length pre + (k - List.length pre))%nat with k by lia. exact Ad. }
    rewrite app_assoc, nth_error_app2 in K by exact H'. set (j := (k - List.length (pre ++ mid'))%nat) in *.
    destruct (A2 j) as (a0 & H1 & H2). replace (List.length (pre ++ mid') + j)%nat with k in H2 by lia. rewrite Ad in H2. injection H2 as ->.
    rewrite (V l (Uq _ _ _ _ K)) in Lk. destruct (lookup fin l) as [u|] eqn:E; [|discriminate]. injection Lk as <-.
    specialize (R3 j lab m l a0 u K Br H1 E). lia.
Qed.

(** ** and for another value of a constant *)
Theorem C95_constant : forall file src src' pre n v v' post o,
  program_means src (pre ++ SConst n v :: post) -> program_means src' (pre ++ SConst n v' :: post) -> small src -> small src' -> ~ In SEnd pre ->
  same_sizes post n v v' -> gaia file src = Ret o -> exit_code o = 0 ->
  exists o', gaia file src' = Ret o' /\
    (exit_code o' = 0 \/
     exists k lab m line pos, nth_error (body (pre ++ SConst n v' :: post)) k = Some (SInstr lab m (ODir (Lab n))) /\ is_branch_name m = true /\
       Report file (1 + Z.of_nat k) "branch offset too far away" line pos (stdout o')).
Proof.
  intros file src src' pre n v v' post o M M' B B' N0 SS G X.
  destruct (success file src _ o M B G X) as (f & c & U & C & _ & _). pose proof U as W. unfold pass1_program in W. rewrite pass1_app in W by exact N0.
  destruct (pass1 AsBuilt (mkP1 0 [] []) pre) as [f0|] eqn:E0; [|discriminate]. rewrite pass1_cons in W by discriminate. cbn [pass1_stmt] in W.
  destruct (define f0 n v) as [f1|] eqn:D1; [|discriminate]. apply define_some in D1. destruct D1 as [L0 ->]. rewrite pass1_body in W.
  destruct (pass1_still n v v' (body post) SS (body post) (mkP1 (p1_addr f0) ((n, v) :: p1_env f0) (p1_items f0)) (mkP1 (p1_addr f0) ((n, v') :: p1_env f0) (p1_items f0)) f) as (f' & W' & S').
  { auto. }
  { constructor; cbn [p1_addr p1_items p1_env lookup]; rewrite ?text_eqb_refl; auto. intro k. destruct (text_eqb n k); reflexivity. }
  { exact W. }
  assert (Rf : reference AsBuilt (pre ++ SConst n v :: post) = Some c) by (unfold reference; rewrite U; exact C).
  assert (U' : pass1_program AsBuilt (pre ++ SConst n v' :: post) = Some f').
  { unfold pass1_program. rewrite pass1_app, E0, pass1_cons by (exact N0 || discriminate). cbn [pass1_stmt]. unfold define. rewrite L0, pass1_body. exact W'. }
  assert (Sm : forall k lab m op, nth_error (body (pre ++ SConst n v' :: post)) k = Some (SInstr lab m op) -> nth_error (body (pre ++ SConst n v :: post)) k = Some (SInstr lab m op)).
  { intros k lab m op. rewrite !body_app by exact N0. cbn [body]. intro K. destruct (Nat.lt_ge_cases k (List.length pre)) as [H|H]; [rewrite nth_error_app1 in * by exact H; exact K|].
    rewrite nth_error_app2 in * by exact H. destruct (k - List.length pre)%nat; [discriminate K|exact K]. }
  assert (Known : forall k lab m op l, nth_error (body (pre ++ SConst n v' :: post)) k = Some (SInstr lab m op) -> operand_expr op = Some (Lab l) -> lookup (p1_env f') l <> None).
  { intros k lab m op l K O. apply Sm in K. destruct (instr_piece _ _ _ _ _ _ _ Rf K) as (a & e & g & md & opc & size & bs & _ & _ & L3 & _ & _ & _ & En & _).
    unfold labels in L3. rewrite U in L3. injection L3 as <-. unfold encode_operand in En. cbn [it_expr] in En. rewrite O in En. cbn [eval] in En.
    rewrite (s2_env _ _ _ _ _ S' l). destruct (text_eqb n l); [discriminate|]. destruct (lookup (p1_env f) l); [discriminate|discriminate En]. }
  destruct (reach_item file src' _ f' M' B' U') as (o' & G' & [X'|(k & lab & m & l & line & pos & K & Br & R & it & I & Ex & H & _)]).
  { intros l (lab & m & op & I & O). apply In_nth_error in I. destruct I as (k & K). eapply Known; eauto. }
  { exists o'. split; [exact G'|]. left. exact X'. }
  exists o'. split; [exact G'|]. right. exists k, lab, m, line, pos.
  (* the branch is one to the constant: the other ones are as far as before *)
  enough (l = n) by (subst l; auto).
  destruct (text_eqb n l) eqn:T; [apply text_eqb_eq in T; congruence|]. exfalso.
  rewrite (s2_items _ _ _ _ _ S') in I.
  assert (Enc : encode_operand AsBuilt (p1_env f) it <> None).
  { clear - C I. revert c C. induction (p1_items f) as [|x its IH]; intros c C; [destruct I|]. cbn [pass2] in C.
    destruct (encode_operand AsBuilt (p1_env f) x) as [bs|] eqn:E; [|discriminate]. destruct (pass2 AsBuilt (p1_env f) its) as [c'|] eqn:P; [|discriminate].
    destruct I as [<- |I]; [congruence|]. apply (IH I c'). reflexivity. }
  apply Enc. unfold encode_operand in *. rewrite Ex in *. cbn [eval] in *. rewrite (s2_env _ _ _ _ _ S' l), T in H. exact H.
Qed.

(** the hypotheses are met: 128 instructions between a branch and its target are too many *)
Example C95_case : exists file src src' pre mid' post e fin o o',
  program_means src (pre ++ [] ++ post) /\ program_means src' (pre ++ mid' ++ post) /\ small src /\ small src' /\
  ~ In SEnd pre /\ ~ In SEnd mid' /\
  address AsBuilt (pre ++ []) (List.length (pre ++ [])) = Some 2 /\ address AsBuilt (pre ++ mid') (List.length (pre ++ mid')) = Some 130 /\
  labels AsBuilt (pre ++ []) = Some e /\ labels AsBuilt (pre ++ mid') = Some e /\
  (forall s n, In s (body post) -> defines s = Some n -> lookup e n = None) /\ (forall n, ~ uses mid' n) /\
  labels AsBuilt (pre ++ [] ++ post) = Some fin /\ keeps_size post fin 128 /\
  gaia file src = Ret o /\ exit_code o = 0 /\ binary o = [240; 0; 234; 76; 2; 0] /\ gaia file src' = Ret o' /\ exit_code o' = 1.
Proof.
  set (l0 := [T " beq L"]). set (l2 := repeat (T " nop") 128). set (l3 := [T "L nop"; T " jmp L"]).
  destruct (statements l0) as [pre|] eqn:E0; [|vm_compute in E0; discriminate].
  destruct (statements l2) as [mid'|] eqn:E2; [|vm_compute in E2; discriminate].
  destruct (statements l3) as [post|] eqn:E3; [|vm_compute in E3; discriminate].
  exists (T "a.asm"), (join (l0 ++ l3)), (join (l0 ++ l2 ++ l3)), pre, mid', post, [], [(T "L", 2)].
  assert (Nops : mid' = repeat (SInstr None "NOP" ONone) 128) by (vm_compute in E2; injection E2 as <-; reflexivity).
  vm_compute in E0, E3. injection E0 as <-. injection E3 as <-. subst mid'. clear E2.
  do 2 eexists. do 2 (split; [apply means_lines; vm_compute; reflexivity|]). do 2 (split; [vm_compute; reflexivity|]).
  split; [intro K; repeat destruct K as [K|K]; (discriminate || exact K)|].
  split; [intro K; apply repeat_spec in K; discriminate|].
  do 4 (split; [vm_compute; reflexivity|]).
  split; [reflexivity|].
  split. { intros n (lab & m & op & I & O). rewrite body_id in I by (intro K; apply repeat_spec in K; discriminate). apply repeat_spec in I. injection I as -> -> ->. discriminate. }
  split; [vm_compute; reflexivity|].
  split. { intros lab m op n v I O B J Mv L. cbn in I. repeat destruct I as [I|I]; try contradiction; injection I as <- <- <-; [discriminate O|discriminate J]. }
  do 4 (split; [vm_compute; reflexivity|]). reflexivity.
Qed.

(** the hypotheses of C95_exactly are met, at the last distance that is reached and at the first one that is not *)
Example C95_exactly_case : forall n, n = 127%nat \/ n = 128%nat -> exists src p fin o,
  program_means src p /\ small src /\ labels AsBuilt p = Some fin /\ (forall l, uses p l -> lookup fin l <> None) /\
  nth_error (body p) 0 = Some (SInstr None "BEQ" (ODir (Lab (T "L")))) /\ address AsBuilt p 0 = Some 0 /\ lookup fin (T "L") = Some (2 + Z.of_nat n) /\
  gaia (T "a.asm") src = Ret o /\ exit_code o = (if Nat.eqb n 127 then 0 else 1).
Proof.
  intros n H.
  set (ls := [T " beq L"] ++ repeat (T " nop") n ++ [T "L nop"]).
  assert (exists o, gaia (T "a.asm") (join ls) = Ret o /\ exit_code o = (if Nat.eqb n 127 then 0 else 1)) as (o & G & X)
    by (destruct H as [-> | ->]; eexists; split; vm_compute; reflexivity).
  exists (join ls), (SInstr None "BEQ" (ODir (Lab (T "L"))) :: repeat (SInstr None "NOP" ONone) n ++ [SInstr (Some (T "L")) "NOP" ONone]), [(T "L", 2 + Z.of_nat n)], o.
  split; [destruct H as [-> | ->]; apply means_lines; vm_compute; reflexivity|]. split; [destruct H as [-> | ->]; vm_compute; reflexivity|].
  split; [destruct H as [-> | ->]; vm_compute; reflexivity|].
  split. { intros l (lab & m & op & I & O). rewrite body_id in I.
    - destruct I as [I|I]; [injection I as <- <- <-; injection O as <-; discriminate|]. apply in_app_iff in I. destruct I as [I|[I|[]]]; [apply repeat_spec in I; injection I as -> -> ->|injection I as <- <- <-]; discriminate.
    - intros [K|K]; [discriminate|]. apply in_app_iff in K. destruct K as [K|[K|[]]]; [apply repeat_spec in K|]; discriminate. }
  split; [reflexivity|]. split; [reflexivity|]. split; [destruct H as [-> | ->]; reflexivity|].
  auto.
Qed.
