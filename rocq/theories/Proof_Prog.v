(** Proof_Prog.v -- facts about programs of the grammar, for the theorems of Prop_*.v. *)
From Verif Require Import Base Proof_Base Model_Main Spec_Isa Spec_Text Spec_Asm Spec_Report Proof_Lex2 Proof_Core Proof_Sim2
  Proof_Run Proof_Modes Spec_Diag Spec_Prog Proof_Diag Proof_Whole Proof_Ref Proof_Image Proof_Regular Proof_At.

(** ** Statements and lines *)
Definition expr16 (x : expr) : Prop := match x with Num v => 0 <= v <= 65535 | Lab _ => True end.
Definition stmt16 (s : stmt) : Prop :=
  match s with
  | SOrg v | SConst _ v => 0 <= v <= 65535
  | SInstr _ m o => is_name m /\ match operand_expr o with Some x => expr16 x | None => True end
  | _ => True
  end.

Lemma Line_16 : forall ts s, Line ts s -> (forall v, In (TNumber v) ts -> 0 <= v <= 65535) ->
  (forall m, In (TMnemonic m) ts -> is_name m) -> stmt16 s.
Proof.
  intros ts s HG N Nm.
  assert (E : forall t e, Expr t e -> In t ts -> expr16 e).
  { intros t e He Hin. destruct He; [apply N; exact Hin|exact I]. }
  assert (O : forall l o, Operand l o -> (forall t, In t l -> In t ts) ->
    match operand_expr o with Some x => expr16 x | None => True end).
  { intros l o Ho Hin. destruct Ho; cbn [operand_expr]; try exact I; (eapply E; [eassumption|apply Hin; cbn; auto]). }
  destruct HG; cbn [stmt16]; try exact I; try (apply N; cbn; auto; fail).
  - split; [apply Nm; left; reflexivity|]. eapply O; [eassumption|]. intros t Ht. right. exact Ht.
  - split; [apply Nm; right; left; reflexivity|]. eapply O; [eassumption|]. intros t Ht. right; right. exact Ht.
Qed.

Lemma line_means_16 : forall l s, line_means l s -> stmt16 s.
Proof.
  intros l s (toks & HL & HG). apply (Line_16 _ _ HG).
  - apply (Lexes_numbers _ _ _ _ _ HL). intros n v [-> H] Hn. lia.
  - apply (Lexes_named _ _ _ _ _ HL).
Qed.

Lemma lines_16 : forall lines p, Forall2 line_means lines p -> Forall stmt16 p.
Proof. intros lines p H. induction H; constructor; eauto using line_means_16. Qed.

Lemma stmt16_ok : forall s, stmt16 s -> stmt_ok s.
Proof.
  intros [|n|n v|v| |lab m o] H; cbn in *; try exact I; [lia|]. destruct H as [_ H].
  destruct (operand_expr o) as [[v|l]|]; cbn in *; lia || exact I.
Qed.

(** ** The body *)
Lemma pass1_body : forall r p st, pass1 r st p = pass1 r st (body p).
Proof.
  induction p as [|s p IH]; intro st; [reflexivity|].
  destruct s; cbn [body pass1]; try reflexivity; destruct (pass1_stmt r st _); auto.
Qed.

Lemma body_no_end : forall p, ~ In SEnd (body p).
Proof.
  induction p as [|s p IH]; cbn [body]; [tauto|]. destruct s; cbn; try tauto; intros [K|K]; try discriminate; auto.
Qed.

Lemma pass1_cons : forall r st s p, s <> SEnd ->
  pass1 r st (s :: p) = match pass1_stmt r st s with Some st1 => pass1 r st1 p | None => None end.
Proof. intros r st s p H. destruct s; try congruence; reflexivity. Qed.

Lemma pass1_app : forall r a b st, ~ In SEnd a ->
  pass1 r st (a ++ b) = match pass1 r st a with Some st1 => pass1 r st1 b | None => None end.
Proof.
  induction a as [|s a IH]; intros b st H; [reflexivity|]. cbn [app].
  assert (s <> SEnd) as Ns by (intros ->; apply H; left; reflexivity).
  rewrite !pass1_cons by exact Ns. destruct (pass1_stmt r st s); [|reflexivity].
  apply IH. intro K. apply H. right; exact K.
Qed.

(** splitting a program at a statement *)
Lemma body_split : forall p k s, nth_error (body p) k = Some s ->
  body p = firstn k (body p) ++ s :: skipn (S k) (body p) /\ ~ In SEnd (firstn k (body p)) /\ s <> SEnd.
Proof.
  intros p k s H. pose proof (body_no_end p) as N. apply nth_error_split in H. destruct H as (a & b & E & L).
  assert (firstn k (body p) = a) as -> by (rewrite E, <- L, firstn_app, Nat.sub_diag, firstn_all; cbn; apply app_nil_r).
  assert (skipn (S k) (body p) = b) as -> by (rewrite E, <- L; replace (S (List.length a)) with (List.length (a ++ [s])) by (rewrite app_length; cbn; lia);
    replace (a ++ s :: b) with ((a ++ [s]) ++ b) by (rewrite <- app_assoc; reflexivity); rewrite skipn_app, skipn_all, Nat.sub_diag; reflexivity).
  rewrite E in N. split; [exact E|]. split; intro K.
  - apply N. apply in_or_app. left; exact K.
  - apply N. apply in_or_app. right; left; exact K.
Qed.

Lemma pass1_at : forall r p k s fin, nth_error (body p) k = Some s -> pass1_program r p = Some fin ->
  exists st st', pass1_program r (firstn k (body p)) = Some st /\ pass1_stmt r st s = Some st' /\
    pass1 r st' (skipn (S k) (body p)) = Some fin.
Proof.
  intros r p k s fin H E. destruct (body_split _ _ _ H) as (B & N & Ns). unfold pass1_program in *.
  rewrite pass1_body in E. revert E. revert B N. generalize (firstn k (body p)) (skipn (S k) (body p)). intros a b B N E.
  rewrite B, pass1_app in E by assumption.
  destruct (pass1 r _ a) as [st|]; [|discriminate].
  rewrite pass1_cons in E by assumption. destruct (pass1_stmt r st s) as [st'|] eqn:E1; [|discriminate]. eauto.
Qed.

Lemma define_some : forall st n v st', define st n v = Some st' ->
  lookup (p1_env st) n = None /\ st' = mkP1 (p1_addr st) ((n, v) :: p1_env st) (p1_items st).
Proof. intros st n v st' H. unfold define in H. destruct (lookup (p1_env st) n); [discriminate|]. injection H as <-. auto. Qed.

(** an instruction, on the first pass *)
Lemma pass1_stmt_instr : forall r st lab m o st', pass1_stmt r st (SInstr lab m o) = Some st' ->
  exists md op size,
    denoted_mode m o (value_of (with_own lab (p1_addr st) (p1_env st)) o) = Some md /\
    has_mode r m md (match value_of (with_own lab (p1_addr st) (p1_env st)) o with Some _ => true | None => false end) = Some (op, size) /\
    match lab with Some n => lookup (p1_env st) n = None | None => True end /\
    st' = mkP1 (p1_addr st + size) (with_own lab (p1_addr st) (p1_env st))
               (p1_items st ++ [mkItem (p1_addr st) m md op size (operand_expr o)]).
Proof.
  assert (I : forall r st m o st', pass1_instr r st m o = Some st' -> exists md op size,
    denoted_mode m o (value_of (p1_env st) o) = Some md /\
    has_mode r m md (match value_of (p1_env st) o with Some _ => true | None => false end) = Some (op, size) /\
    st' = mkP1 (p1_addr st + size) (p1_env st) (p1_items st ++ [mkItem (p1_addr st) m md op size (operand_expr o)])).
  { intros r st m o st' H. unfold pass1_instr in H. fold (value_of (p1_env st) o) in H.
    destruct (denoted_mode m o (value_of (p1_env st) o)) as [md|] eqn:D; [|discriminate].
    destruct (has_mode r m md _) as [[op size]|] eqn:M; [|discriminate]. injection H as <-.
    exists md, op, size. auto. }
  intros r st lab m o st' H. destruct lab as [n|]; cbn [pass1_stmt with_own] in *.
  - destruct (define st n (p1_addr st)) as [st1|] eqn:D; [|discriminate].
    apply define_some in D. destruct D as [Lk ->]. apply I in H. cbn [p1_addr p1_env p1_items] in H.
    destruct H as (md & op & size & A & B & C). exists md, op, size. auto.
  - apply I in H. destruct H as (md & op & size & A & B & C). exists md, op, size. auto.
Qed.

Lemma items_count : forall r p st st', pass1 r st p = Some st' -> ~ In SEnd p ->
  exists more, p1_items st' = p1_items st ++ more /\ zlen more = count is_instr p.
Proof.
  induction p as [|s p IH]; intros st st' H N.
  - injection H as <-. exists []. rewrite app_nil_r. auto.
  - assert (s <> SEnd) as Ns by (intros ->; apply N; left; reflexivity). rewrite pass1_cons in H by exact Ns.
    destruct (pass1_stmt r st s) as [st1|] eqn:E; [|discriminate].
    destruct (IH _ _ H) as (more & A & B); [intro K; apply N; right; exact K|].
    assert (exists m1, p1_items st1 = p1_items st ++ m1 /\ zlen m1 = if is_instr s then 1 else 0) as (m1 & C & D).
    { destruct s as [|n|n v|v| |lab m o]; cbn [is_instr]; try congruence;
        try (cbn [pass1_stmt] in E; first [injection E as <-|apply define_some in E; destruct E as [_ ->]]; exists []; rewrite app_nil_r; auto).
      apply pass1_stmt_instr in E. destruct E as (md & op & size & _ & _ & _ & ->). cbn [p1_items]. eexists. split; reflexivity. }
    exists (m1 ++ more). split; [rewrite A, C, app_assoc; reflexivity|]. rewrite zlen_app, B, D. unfold count. cbn [filter].
    destruct (is_instr s); cbn [List.length]; lia.
Qed.

Lemma pass2_split : forall r e l1 it l2 code, pass2 r e (l1 ++ it :: l2) = Some code ->
  exists bs a b, encode_operand r e it = Some bs /\ code = a ++ (it_addr it, it_opcode it :: bs) :: b /\ List.length a = List.length l1.
Proof.
  intros r e. induction l1 as [|x l1 IH]; intros it l2 code H; cbn [app pass2] in H.
  - destruct (encode_operand r e it) as [bs|]; [|discriminate]. destruct (pass2 r e l2) as [c|]; [|discriminate].
    injection H as <-. exists bs, [], c. auto.
  - destruct (encode_operand r e x) as [bx|]; [|discriminate].
    destruct (pass2 r e (l1 ++ it :: l2)) as [c|] eqn:E; [|discriminate]. injection H as <-.
    destruct (IH it l2 c E) as (bs & a & b & A & -> & L). exists bs, ((it_addr x, it_opcode x :: bx) :: a), b.
    split; [exact A|]. split; [reflexivity|]. cbn. lia.
Qed.

(** ** The code of an instruction *)
Theorem instr_piece : forall r p code k lab m o, reference r p = Some code ->
  nth_error (body p) k = Some (SInstr lab m o) ->
  exists a e fin md op size bs,
    address r p k = Some a /\ labels_at r p k = Some e /\ labels r p = Some fin /\
    extends (with_own lab a e) fin /\
    denoted_mode m o (value_of (with_own lab a e) o) = Some md /\
    has_mode r m md (match value_of (with_own lab a e) o with Some _ => true | None => false end) = Some (op, size) /\
    encode_operand r fin (mkItem a m md op size (operand_expr o)) = Some bs /\
    nth_error code (Z.to_nat (count is_instr (firstn k (body p)))) = Some (a, op :: bs).
Proof.
  intros r p code k lab m o H K. unfold reference in H.
  destruct (pass1_program r p) as [fin|] eqn:E; [|discriminate].
  destruct (pass1_at _ _ _ _ _ K E) as (st & st' & E1 & E2 & E3).
  destruct (pass1_stmt_instr _ _ _ _ _ _ E2) as (md & op & size & D & M & _ & ->).
  destruct (pass1_extends _ _ _ _ E3) as [(more & It) Ex]. cbn [p1_items p1_env] in It, Ex.
  rewrite <- app_assoc in It. cbn [app] in It. rewrite It in H.
  destruct (pass2_split _ _ _ _ _ _ H) as (bs & a & b & En & -> & L). cbn [it_addr it_opcode] in *.
  exists (p1_addr st), (p1_env st), (p1_env fin), md, op, size, bs.
  unfold address, labels_at, labels. rewrite E1, E. cbn [option_map]. do 7 (split; [auto; fail|]).
  destruct (items_count _ _ _ _ E1) as (its & Ei & Ci).
  { destruct (body_split _ _ _ K) as (_ & N & _). exact N. }
  cbn [p1_items app] in Ei. rewrite Ei in L.
  assert (Z.to_nat (count is_instr (firstn k (body p))) = List.length a) as ->.
  { rewrite <- Ci. unfold zlen. lia. }
  apply nth_app_mid.
Qed.

(** ** The labels *)
Lemma text_eqb_same : forall n, text_eqb n n = true.
Proof. intro n. apply text_eqb_eq. reflexivity. Qed.

Lemma pass1_stmt_env : forall r st s st', s <> SEnd -> pass1_stmt r st s = Some st' ->
  match defines s with
  | None => p1_env st' = p1_env st
  | Some n => lookup (p1_env st) n = None /\
      p1_env st' = (n, match s with SConst _ v => v | _ => p1_addr st end) :: p1_env st
  end.
Proof.
  intros r st s st' N H. destruct s as [|n|n v|v| |lab m o]; cbn [defines pass1_stmt] in *; try congruence.
  - apply define_some in H. destruct H as [L ->]. auto.
  - apply define_some in H. destruct H as [L ->]. auto.
  - injection H as <-. reflexivity.
  - apply pass1_stmt_instr in H. destruct H as (md & op & size & _ & _ & L & ->). destruct lab; cbn [with_own p1_env]; auto.
Qed.

Lemma pass1_env : forall r p st st', ~ In SEnd p -> pass1 r st p = Some st' ->
  zlen (p1_env st') = zlen (p1_env st) + count defines_label p /\
  forall n, (exists v, lookup (p1_env st') n = Some v) <->
            (exists v, lookup (p1_env st) n = Some v) \/ exists s, In s p /\ defines s = Some n.
Proof.
  induction p as [|s p IH]; intros st st' N H.
  - injection H as <-. split; [cbn; lia|]. intro n. split; [auto|]. intros [K|(s & [] & _)]; exact K.
  - assert (s <> SEnd) as Ns by (intros ->; apply N; left; reflexivity). rewrite pass1_cons in H by exact Ns.
    destruct (pass1_stmt r st s) as [st1|] eqn:E; [|discriminate].
    destruct (IH st1 st') as [IA IB]; [intro K; apply N; right; exact K|exact H|].
    pose proof (pass1_stmt_env _ _ _ _ Ns E) as D. unfold count, defines_label in *. cbn [filter]. split.
    + rewrite IA. destruct (defines s) as [n|].
      * destruct D as [_ ->]. unfold zlen. cbn [List.length]. lia.
      * rewrite D. reflexivity.
    + intro n. rewrite IB. destruct (defines s) as [x|] eqn:Dx.
      * destruct D as [L ->]. cbn [lookup]. split.
        -- intros [(v & K)|(s' & K1 & K2)]; [|right; exists s'; split; [right|]; auto].
           destruct (text_eqb x n) eqn:Q; [|left; eauto]. apply text_eqb_eq in Q. subst. right. exists s. split; [left|]; auto.
        -- intros [(v & K)|(s' & [<- |K1] & K2)].
           ++ destruct (text_eqb x n); left; eauto.
           ++ rewrite K2 in Dx. injection Dx as ->. rewrite text_eqb_same. left; eauto.
           ++ right. eauto.
      * rewrite D. split.
        -- intros [K|(s' & K1 & K2)]; [left; exact K|right; exists s'; split; [right|]; auto].
        -- intros [K|(s' & [<- |K1] & K2)]; [left; exact K|congruence|right; eauto].
Qed.

Lemma pass1_label : forall r p k s n fin, nth_error (body p) k = Some s -> defines s = Some n ->
  pass1_program r p = Some fin ->
  exists a, address r p k = Some a /\
    lookup (p1_env fin) n = Some (match s with SConst _ v => v | _ => a end).
Proof.
  intros r p k s n fin K D E. destruct (pass1_at _ _ _ _ _ K E) as (st & st' & E1 & E2 & E3).
  destruct (body_split _ _ _ K) as (_ & _ & Ns).
  pose proof (pass1_stmt_env _ _ _ _ Ns E2) as V. rewrite D in V. destruct V as [L V].
  exists (p1_addr st). unfold address. rewrite E1. split; [reflexivity|].
  destruct (pass1_extends _ _ _ _ E3) as [_ Ex]. apply Ex. rewrite V. cbn [lookup]. rewrite text_eqb_same. reflexivity.
Qed.

(** ** The statements read so far *)
Lemma accepts_pass1 : forall r p n st st', Forall (sound_placed r (d_env st)) (d_done st) -> accepts r n st p = Some st' ->
  pass1 r (p1_of st) p = Some (p1_of st') /\ Forall (sound_placed r (d_env st')) (d_done st') /\ ~ In SEnd p.
Proof.
  induction p as [|s p IH]; intros n st st' HS H.
  - injection H as <-. cbn. auto.
  - assert (s <> SEnd) as Ns by (intros ->; discriminate).
    assert (accepts r n st (s :: p) = match diag_stmt r n st s with inl st1 => accepts r (n + 1) st1 p | inr _ => None end) as K
      by (destruct s; try congruence; reflexivity).
    rewrite K in H. rewrite pass1_cons by exact Ns. pose proof (diag_stmt_ref r n st s HS) as R.
    destruct (diag_stmt r n st s) as [st1|]; [|discriminate]. destruct R as [-> R]. destruct (IH _ _ _ R H) as (A & B & C).
    split; [exact A|]. split; [exact B|]. intros [Q|Q]; auto.
Qed.

Lemma state_after_pass1 : forall r p st, state_after r p = Some st ->
  pass1_program r p = Some (p1_of st) /\ Forall (sound_placed r (d_env st)) (d_done st) /\ ~ In SEnd p.
Proof. intros r p st H. apply (accepts_pass1 r p 1 (mkD 0 [] []) st); [constructor|exact H]. Qed.

Lemma body_id : forall p, ~ In SEnd p -> body p = p.
Proof.
  induction p as [|s p IH]; intro N; [reflexivity|]. destruct s; cbn [body]; try (f_equal; apply IH; intro K; apply N; right; exact K).
  exfalso. apply N. left; reflexivity.
Qed.

Lemma state_after_env : forall r p st, state_after r p = Some st ->
  zlen (d_env st) = count defines_label p /\
  forall n, (exists v, lookup (d_env st) n = Some v) <-> exists s, In s p /\ defines s = Some n.
Proof.
  intros r p st H. destruct (state_after_pass1 _ _ _ H) as (A & _ & N).
  destruct (pass1_env r p _ _ N A) as [B C]. cbn [p1_of p1_env] in *. unfold zlen in B at 2. cbn [List.length] in B.
  split; [lia|]. intro n. rewrite C. split; [|auto]. intros [(v & K)|K]; [discriminate|exact K].
Qed.

Lemma not_defined : forall r p st n, state_after r p = Some st -> ~ (exists s, In s p /\ defines s = Some n) ->
  lookup (d_env st) n = None.
Proof.
  intros r p st n H N. destruct (state_after_env _ _ _ H) as [_ C]. destruct (lookup (d_env st) n) as [v|] eqn:E; [|reflexivity].
  exfalso. apply N, C. eauto.
Qed.

(** ** The result of assembling a program *)

Theorem program_cases : forall file src p, program_means src p -> small src ->
  (exists st code bin, diagnose AsBuilt p = DOk st code /\ reference AsBuilt p = Some code /\
     pass1_program AsBuilt p = Some (p1_of st) /\
     complete AsBuilt (d_env st) (d_done st) = inl code /\
     gaia file src = Ret (mkOutcome 0 (summary (total_size (d_done st)) (zlen (d_env st))) bin) /\
     is_image (writes AsBuilt st) bin /\ (monotone AsBuilt p -> is_image code bin)) \/
  (exists n m w o lines line toks, diagnose AsBuilt p = DError n m w /\ reference AsBuilt p = None /\
     gaia file src = Ret o /\ exit_code o = 1 /\ source_of lines src /\ Forall2 line_means lines p /\
     nth_error lines (Z.to_nat (n - 1)) = Some line /\ Lexes literal16 true 0 line toks /\
     Report file n m (before_nul line) (place_offset toks w) (stdout o)).
Proof.
  intros file src p (lines & HS & HM) HB. pose proof (gaia_diag file lines src p HS HM HB) as G.
  pose proof (diagnose_reference AsBuilt p) as R.
  pose proof (diag_from_good p 1 (mkD 0 [] []) (Forall_impl _ stmt16_ok (lines_16 _ _ HM)) good_init) as Gd.
  fold (diagnose AsBuilt p) in Gd. destruct (diagnose AsBuilt p) as [st code|n m w] eqn:E.
  - left. destruct R as (R1 & R2 & R3 & R4). eexists st, code, _. split; [reflexivity|]. do 3 (split; [assumption|]).
    split; [exact G|]. split; [eapply file_writes; eauto|].
    intro M. pose proof (diag_from_sorted p 1 (mkD 0 [] []) M I (Z.le_refl 0) (Forall_nil _)) as S.
    fold (diagnose AsBuilt p) in S. rewrite E in S.
    destruct (accepted_good _ _ Gd R3 R4) as (A1 & A2 & _ & _ & A5).
    eapply file_undisturbed; eauto.
    + eapply sorted_undisturbed; eauto.
    + intros a Ha. rewrite <- A5. eapply sorted_end; eauto.
  - right. destruct G as (o & line & toks & G1 & G2 & G3 & G4 & G5). exists n, m, w, o, lines, line, toks. auto 12.
Qed.

(** ** Bounds on addresses and labels *)
Lemma pass1_stmt_bounds : forall r st s st' B, stmt16 s -> s <> SEnd -> 65535 <= B ->
  0 <= p1_addr st <= B -> (forall n v, lookup (p1_env st) n = Some v -> 0 <= v <= B) ->
  pass1_stmt r st s = Some st' ->
  0 <= p1_addr st' <= (if is_instr s then B + 3 else B) /\ (forall n v, lookup (p1_env st') n = Some v -> 0 <= v <= B).
Proof.
  intros r st s st' B H16 Ns HB HA HV E.
  assert (Ev : forall n v, lookup (p1_env st') n = Some v -> 0 <= v <= B).
  { pose proof (pass1_stmt_env _ _ _ _ Ns E) as D. intros n v L. destruct (defines s) as [x|] eqn:Dx; [|rewrite D in L; eauto].
    destruct D as [_ D]. rewrite D in L. cbn [lookup] in L. destruct (text_eqb x n); [|eauto].
    injection L as <-. destruct s; cbn [stmt16] in H16; try discriminate; lia. }
  split; [|exact Ev]. destruct s as [|n|n v|v| |lab m o]; cbn [pass1_stmt is_instr] in *.
  - injection E as <-. lia.
  - apply define_some in E. destruct E as [_ ->]. cbn. lia.
  - apply define_some in E. destruct E as [_ ->]. cbn. lia.
  - injection E as <-. cbn [stmt16 p1_addr] in *. lia.
  - congruence.
  - apply pass1_stmt_instr in E. destruct E as (md & op & size & _ & M & _ & ->). cbn [p1_addr].
    destruct (has_mode_bytes _ _ _ _ _ _ M) as [Hs _]. destruct (narrow md), (wide md); lia.
Qed.

Lemma pass1_bounds : forall r p st st' B, Forall stmt16 p -> ~ In SEnd p -> 65535 <= B ->
  0 <= p1_addr st <= B -> (forall n v, lookup (p1_env st) n = Some v -> 0 <= v <= B) ->
  pass1 r st p = Some st' ->
  0 <= p1_addr st' <= B + 3 * count is_instr p /\
  (forall n v, lookup (p1_env st') n = Some v -> 0 <= v <= B + 3 * count is_instr p).
Proof.
  induction p as [|s p IH]; intros st st' B H16 N HB HA HV E.
  - injection E as <-. cbn. rewrite Z.add_0_r. auto.
  - assert (s <> SEnd) as Ns by (intros ->; apply N; left; reflexivity). rewrite pass1_cons in E by exact Ns.
    destruct (pass1_stmt r st s) as [st1|] eqn:E1; [|discriminate]. inversion H16 as [|? ? Hs H16']; subst.
    destruct (pass1_stmt_bounds r st s st1 B Hs Ns HB HA HV E1) as [A1 A2].
    destruct (IH st1 st' (if is_instr s then B + 3 else B)) as [I1 I2]; auto.
    + intro K; apply N; right; exact K.
    + destruct (is_instr s); lia.
    + intros n v L. specialize (A2 n v L). destruct (is_instr s); lia.
    + assert (B + 3 * count is_instr (s :: p) = (if is_instr s then B + 3 else B) + 3 * count is_instr p) as ->.
      { unfold count. cbn [filter]. destruct (is_instr s); cbn [List.length]; lia. }
      auto.
Qed.

Lemma program_bounds : forall r p st, Forall stmt16 p -> pass1_program r p = Some st ->
  0 <= p1_addr st <= 65535 + 3 * count is_instr (body p) /\
  (forall n v, lookup (p1_env st) n = Some v -> 0 <= v <= 65535 + 3 * count is_instr (body p)).
Proof.
  intros r p st H E. unfold pass1_program in E. rewrite pass1_body in E. eapply pass1_bounds in E.
  - exact E.
  - apply Forall_forall. intros s Hs. rewrite Forall_forall in H. apply H.
    clear - Hs. induction p as [|x p IH]; [destruct Hs|]. destruct x; cbn [body] in Hs; try destruct Hs as [<- |Hs];
      try (left; reflexivity); try (right; apply IH; exact Hs). destruct Hs.
  - apply body_no_end.
  - lia.
  - cbn. lia.
  - intros n v K. discriminate.
Qed.

(** ** Splitting an accepted program *)
Lemma diagnose_state : forall r p n st fin code, diag_from r n st p = DOk fin code ->
  accepts r n st (body p) = Some fin /\ complete r (d_env fin) (d_done fin) = inl code.
Proof.
  assert (C : forall r st fin code, d_close r st = DOk fin code -> st = fin /\ complete r (d_env fin) (d_done fin) = inl code).
  { intros r st fin code H. unfold d_close in H. destruct (complete r (d_env st) (d_done st)) as [c|[? ?]] eqn:E; [|discriminate].
    injection H as <- <-. auto. }
  induction p as [|s p IH]; intros n st fin code H.
  - apply C in H. destruct H as [-> H]. auto.
  - assert (s = SEnd \/ s <> SEnd) as [-> |Ns] by (destruct s; auto; right; discriminate).
    + apply C in H. destruct H as [-> H]. auto.
    + assert (body (s :: p) = s :: body p) as -> by (destruct s; try congruence; reflexivity).
      assert (diag_from r n st (s :: p) = match diag_stmt r n st s with
        | inl st' => diag_from r (n + 1) st' p | inr (m, w) => DError n m w end) as E by (destruct s; try congruence; reflexivity).
      rewrite E in H. destruct (diag_stmt r n st s) as [st1|[m w]] eqn:Es; [|discriminate].
      assert (accepts r n st (s :: body p) = match diag_stmt r n st s with inl st' => accepts r (n + 1) st' (body p) | inr _ => None end) as ->
        by (destruct s; try congruence; reflexivity).
      rewrite Es. apply IH. exact H.
Qed.

Lemma accepts_app : forall r a b n st, accepts r n st (a ++ b) =
  match accepts r n st a with Some st1 => accepts r (n + zlen a) st1 b | None => None end.
Proof.
  induction a as [|s a IH]; intros b n st.
  - cbn. rewrite Z.add_0_r. reflexivity.
  - cbn [app]. assert (zlen (s :: a) = 1 + zlen a) as -> by (unfold zlen; cbn [List.length]; lia).
    replace (n + (1 + zlen a)) with (n + 1 + zlen a) by lia.
    destruct s; cbn [accepts]; try reflexivity;
      (match goal with |- context [diag_stmt ?r ?n ?st ?s] => destruct (diag_stmt r n st s) end; [apply IH|reflexivity]).
Qed.

Lemma state_after_split : forall r l k s fin, nth_error l k = Some s -> state_after r l = Some fin ->
  exists st st', state_after r (firstn k l) = Some st /\ diag_stmt r (1 + Z.of_nat k) st s = inl st' /\
    accepts r (2 + Z.of_nat k) st' (skipn (S k) l) = Some fin.
Proof.
  intros r l k s fin K E. apply nth_error_split in K. destruct K as (a & b & -> & L).
  assert (firstn k (a ++ s :: b) = a) as -> by (rewrite <- L, firstn_app, Nat.sub_diag, firstn_all; cbn; apply app_nil_r).
  assert (skipn (S k) (a ++ s :: b) = b) as ->.
  { rewrite <- L. replace (S (List.length a)) with (List.length (a ++ [s])) by (rewrite app_length; cbn; lia).
    replace (a ++ s :: b) with ((a ++ [s]) ++ b) by (rewrite <- app_assoc; reflexivity). rewrite skipn_app, skipn_all, Nat.sub_diag. reflexivity. }
  unfold state_after in *. rewrite accepts_app in E. destruct (accepts r 1 _ a) as [st|]; [|discriminate].
  assert (zlen a = Z.of_nat k) as Ez by (unfold zlen; lia). rewrite Ez in E.
  exists st. destruct s; cbn [accepts] in E; try discriminate;
    (match type of E with match ?d with _ => _ end = _ => destruct d as [st'|] eqn:Ed end; [|discriminate]);
    exists st'; split; auto; split; auto; rewrite <- E; f_equal; lia.
Qed.

Lemma diag_stmt_instr : forall r n sd lab m o, (forall l, lab = Some l -> lookup (d_env sd) l = None) ->
  diag_stmt r n sd (SInstr lab m o) =
  diag_instr r n (mkD (d_addr sd) (with_own lab (d_addr sd) (d_env sd)) (d_done sd)) m o.
Proof.
  intros r n sd [l|] m o H; cbn [diag_stmt with_own].
  - rewrite (H l eq_refl). reflexivity.
  - destruct sd; reflexivity.
Qed.

Lemma diag_stmt_instr_inv : forall r n sd lab m o st', diag_stmt r n sd (SInstr lab m o) = inl st' ->
  (forall l, lab = Some l -> lookup (d_env sd) l = None) /\
  diag_instr r n (mkD (d_addr sd) (with_own lab (d_addr sd) (d_env sd)) (d_done sd)) m o = inl st'.
Proof.
  intros r n sd lab m o st' H.
  assert (N : forall l, lab = Some l -> lookup (d_env sd) l = None).
  { intros l ->. cbn [diag_stmt] in H. destruct (lookup (d_env sd) l); [discriminate|reflexivity]. }
  split; [exact N|]. rewrite <- diag_stmt_instr by exact N. exact H.
Qed.

(** the instructions read so far stay *)
Lemma diag_stmt_done : forall r n st s st', diag_stmt r n st s = inl st' ->
  exists more, d_done st' = d_done st ++ more /\ zlen more = if is_instr s then 1 else 0.
Proof.
  intros r n st s st' H.
  assert (I : forall st m o st', diag_instr r n st m o = inl st' -> exists x, d_done st' = d_done st ++ [x]).
  { clear. intros st m o st' H. unfold diag_instr in H. cbn zeta in H. destruct (_ && _); [discriminate|].
    destruct (denoted_mode m o _); [|discriminate]. destruct (has_mode r m _ _) as [[op size]|]; [|discriminate].
    destruct (unresolved (d_env st) o); [injection H as <-; eexists; reflexivity|].
    destruct (encode_operand r (d_env st) _); [injection H as <-; eexists; reflexivity|discriminate]. }
  destruct s as [|l|l v|v| |lab m o]; cbn [is_instr].
  1-5: exists []; rewrite app_nil_r; split; [|reflexivity]; cbn [diag_stmt] in H;
    try (destruct (lookup (d_env st) l); [discriminate|]); injection H as <-; reflexivity.
  apply diag_stmt_instr_inv in H. destruct H as [_ H]. apply I in H. destruct H as (x & E). exists [x]. auto.
Qed.

Lemma accepts_done : forall r p n st st', accepts r n st p = Some st' ->
  exists more, d_done st' = d_done st ++ more /\ zlen more = count is_instr p.
Proof.
  induction p as [|s p IH]; intros n st st' H.
  - injection H as <-. exists []. rewrite app_nil_r. auto.
  - assert (exists st1, diag_stmt r n st s = inl st1 /\ accepts r (n + 1) st1 p = Some st') as (st1 & E1 & E2).
    { destruct s; cbn [accepts] in H; try discriminate;
        match type of H with match ?d with _ => _ end = _ => destruct d as [st1|] eqn:E1 end; try discriminate; eauto. }
    destruct (diag_stmt_done _ _ _ _ _ E1) as (m1 & A1 & B1). destruct (IH _ _ _ E2) as (m2 & A2 & B2).
    exists (m1 ++ m2). rewrite A2, A1, app_assoc. split; [reflexivity|]. rewrite zlen_app, B1, B2.
    unfold count. cbn [filter]. destruct (is_instr s); cbn [List.length]; lia.
Qed.

(** the instruction of index [k] among the placed ones *)
Theorem instr_placed : forall r p fin code k lab m o, diagnose r p = DOk fin code ->
  nth_error (body p) k = Some (SInstr lab m o) ->
  exists sd md op size pl,
    state_after r (firstn k (body p)) = Some sd /\
    (forall l, lab = Some l -> lookup (d_env sd) l = None) /\
    unresolved (with_own lab (d_addr sd) (d_env sd)) o && negb (is_branch_name m || is_jump_name m) = false /\
    denoted_mode m o (value_of (with_own lab (d_addr sd) (d_env sd)) o) = Some md /\
    has_mode r m md (match value_of (with_own lab (d_addr sd) (d_env sd)) o with Some _ => true | None => false end) = Some (op, size) /\
    nth_error (d_done fin) (Z.to_nat (count is_instr (firstn k (body p)))) = Some pl /\
    pl_line pl = 1 + Z.of_nat k /\ pl_item pl = mkItem (d_addr sd) m md op size (operand_expr o) /\
    is_open pl = unresolved (with_own lab (d_addr sd) (d_env sd)) o.
Proof.
  intros r p fin code k lab m o H K. destruct (diagnose_state _ _ _ _ _ _ H) as [A _].
  destruct (state_after_split r _ _ _ _ K A) as (sd & st' & E1 & E2 & E3).
  destruct (diag_stmt_instr_inv _ _ _ _ _ _ _ E2) as [N E4].
  exists sd. set (e := with_own lab (d_addr sd) (d_env sd)) in *.
  assert (exists md op size pl, unresolved e o && negb (is_branch_name m || is_jump_name m) = false /\
    denoted_mode m o (value_of e o) = Some md /\
    has_mode r m md (match value_of e o with Some _ => true | None => false end) = Some (op, size) /\
    d_done st' = d_done sd ++ [pl] /\ pl_line pl = 1 + Z.of_nat k /\
    pl_item pl = mkItem (d_addr sd) m md op size (operand_expr o) /\ is_open pl = unresolved e o)
    as (md & op & size & pl & B1 & B2 & B3 & B4 & B5 & B6 & B7).
  { unfold diag_instr in E4. cbn zeta in E4. cbn [d_env d_addr d_done] in E4.
    destruct (_ && _) eqn:F; [discriminate|]. destruct (denoted_mode m o (value_of e o)) as [md|] eqn:D; [|discriminate].
    destruct (has_mode r m md _) as [[op size]|] eqn:Hm; [|discriminate].
    destruct (unresolved e o) eqn:U.
    - injection E4 as <-. exists md, op, size. eexists. cbn [d_done]. repeat (split; [first [reflexivity|eassumption]|]). reflexivity.
    - destruct (encode_operand r e _) as [bs|]; [|discriminate]. injection E4 as <-.
      exists md, op, size. eexists. cbn [d_done]. repeat (split; [first [reflexivity|eassumption]|]). reflexivity. }
  exists md, op, size, pl. do 5 (split; [assumption|]). split; [|auto].
  destruct (accepts_done _ _ _ _ _ E1) as (m1 & C1 & C2). destruct (accepts_done _ _ _ _ _ E3) as (m2 & C3 & _).
  cbn [d_done app] in C1. rewrite C3, B4, <- app_assoc. cbn [app]. rewrite C1.
  assert (Z.to_nat (count is_instr (firstn k (body p))) = List.length m1) as -> by (rewrite <- C2; unfold zlen; lia).
  apply nth_app_mid.
Qed.

(** ** A successful run *)
Theorem assembled : forall file src p o, program_means src p -> small src -> gaia file src = Ret o -> exit_code o = 0 ->
  exists st code, diagnose AsBuilt p = DOk st code /\ reference AsBuilt p = Some code /\
    pass1_program AsBuilt p = Some (p1_of st) /\ complete AsBuilt (d_env st) (d_done st) = inl code /\
    stdout o = summary (total_size (d_done st)) (zlen (d_env st)) /\
    is_image (writes AsBuilt st) (binary o) /\ (monotone AsBuilt p -> is_image code (binary o)).
Proof.
  intros file src p o HM HB HG HE. destruct (program_cases file src p HM HB) as
    [(st & code & bin & A & B & C & D & E & F & G)|(n & m & w & o' & lines & line & toks & _ & _ & E & F & _)].
  - rewrite HG in E. injection E as ->. exists st, code. auto 8.
  - rewrite HG in E. injection E as ->. congruence.
Qed.

Lemma program_16 : forall src p, program_means src p -> Forall stmt16 p.
Proof. intros src p (lines & _ & H). eapply lines_16; eauto. Qed.

Lemma image_holds : forall code bin a bs rest1 rest2, is_image code bin -> 0 <= a -> code = rest1 ++ (a, bs) :: rest2 ->
  (forall x, a <= x < a + zlen bs -> byte_at rest2 x = None) -> holds_at bin a bs.
Proof.
  intros code bin a bs r1 r2 [L H] Ha E N. split; [exact Ha|]. intros i b Hi.
  assert (i < List.length bs)%nat as Li by (apply nth_error_Some; congruence).
  assert (a + zlen bs <= image_end code) as Le.
  { rewrite E, image_end_app. cbn [image_end]. fold (zlen bs). lia. }
  specialize (H (a + Z.of_nat i)). replace (Z.to_nat (a + Z.of_nat i)) with (Z.to_nat a + i)%nat in H by lia.
  rewrite H by (unfold zlen in Le; lia). rewrite E, byte_at_app. cbn [byte_at]. fold (zlen bs).
  rewrite N by (unfold zlen; lia).
  assert ((a <=? a + Z.of_nat i) && (a + Z.of_nat i <? a + zlen bs) = true) as ->.
  { apply andb_true_iff. split; [apply Z.leb_le|apply Z.ltb_lt]; unfold zlen; lia. }
  replace (Z.to_nat (a + Z.of_nat i - a)) with i by lia. rewrite Hi. reflexivity.
Qed.

(** pieces in increasing order do not overlap *)
Lemma sorted_pieces : forall r e l code q, complete r e l = inl code -> Forall good_placed l ->
  Forall (fun p => exists bs, final_bytes e p bs) l -> sorted q l -> r = AsBuilt ->
  forall l1 a bs l2, code = l1 ++ (a, bs) :: l2 -> q <= a /\ forall x, x < a + zlen bs -> byte_at l2 x = None.
Proof.
  intros r e l code q HC HG HF HS Hr. subst r. destruct (complete_code _ _ _ HC) as [<- _]. clear HC.
  revert q HS. induction HF as [|p l (bs0 & Hb & Hs) HF IH]; intros q HS l1 a bs l2 E.
  - destruct l1; discriminate.
  - inversion HG as [|? ? Gp HG']; subst. destruct HS as [S1 S2].
    assert (Ec : code_of e (p :: l) = (it_addr (pl_item p), it_opcode (pl_item p) :: bs0) :: code_of e l).
    { cbn [code_of]. destruct (pl_bytes p); [subst|rewrite Hb]; reflexivity. }
    rewrite Ec in E. destruct l1 as [|w l1]; cbn [app] in E.
    + injection E as <- <- <-. split; [exact S1|]. intros x Hx.
      destruct (code_uncovered e l x HF) as [K _]; [|exact K].
      intro Cv. destruct (sorted_above l (pl_end p) x HG' S2) as [_ K]. specialize (K Cv). rewrite zlen_cons in Hx. unfold pl_end in K. lia.
    + injection E as _ E. destruct (IH HG' _ S2 _ _ _ _ E) as [A B]. split; [|exact B].
      destruct Gp as (P1 & P2 & _). unfold pl_end in A. lia.
Qed.
