(** Prop_Cpu.v -- C76: running the binary is running the source. *)
From Verif Require Import Base Proof_Base Model_Main Spec_Isa Spec_Text Spec_Asm
  Spec_Report Proof_Opcode Proof_Lex2 Proof_Core Proof_Sim2 Proof_Run Proof_Source Proof_Modes Spec_Diag Spec_Prog Proof_Diag Proof_Whole Proof_Ref Proof_Image
  Proof_Prog Proof_Kept Proof_Regular Prop_Program Prop_Code Proof_Check Spec_Cpu.

Lemma word_lo_hi : forall v, 0 <= v -> lo v + 256 * hi v = word v.
Proof.
  intros v H. unfold lo, hi, word. change 65536 with (256 * 256). rewrite (Z.rem_mul_r v 256 256) by lia. lia.
Qed.

Lemma word_small : forall v, 0 <= v < 65536 -> word v = v.
Proof. intros v H. apply Z.mod_small. exact H. Qed.

(** ** The instruction of a statement *)
Theorem C76_instruction : forall file src p o k lab m op mem a b e fin, program_means src p -> small src ->
  gaia file src = Ret o -> exit_code o = 0 -> monotone AsBuilt p -> Forall regular (body p) ->
  nth_error (body p) k = Some (SInstr lab m op) -> address AsBuilt p k = Some a -> address AsBuilt p (S k) = Some b ->
  labels_at AsBuilt p k = Some e -> labels AsBuilt p = Some fin -> b <= 65536 ->
  (forall x, a <= x < b -> nth_error (binary o) (Z.to_nat x) = Some (mem x)) ->
  exists md, decode (mem a) = Some (m, md, b - a) /\ denoted_mode m op (value_of (with_own lab a e) op) = Some md /\
    meant fin a md op = Some (operand_of mem a md).
Proof.
  intros file src p o k lab m op mem a b e fin HM HB HG HE Mo Rg K Aa Ab La Lf Hb In_.
  destruct (C27_ascending_partial _ _ _ _ _ _ _ _ HM HB HG HE Mo K) as (code & a' & bs0 & R & Aa' & Nb & Ho).
  rewrite Aa in Aa'. injection Aa' as <-.
  destruct (instr_piece _ _ _ _ _ _ _ R K) as (a' & e' & fin' & md & opc & size & bs & E1 & E2 & E3 & Ex & D & H & En & N).
  rewrite Aa in E1. injection E1 as <-. rewrite La in E2. injection E2 as <-. rewrite Lf in E3. injection E3 as <-.
  unfold instr_number in Nb. rewrite N in Nb. injection Nb as <-.
  destruct (assembled _ _ _ _ HM HB HG HE) as (st & code' & A & R' & P & _).
  assert (Rk : regular (SInstr lab m op)) by (rewrite Forall_forall in Rg; apply Rg; eapply nth_error_In; exact K).
  assert (L : listed m md = Some (opc, size)).
  { destruct (has_mode_cases _ _ _ _ _ _ H) as [L|(_ & -> & Kn & M & _)]; [exact L|].
    exfalso. destruct (denoted_indexed _ _ _ D M) as (x & [-> | ->]); destruct x as [w|n]; cbn in Rk; try congruence; cbn in Kn; discriminate. }
  pose proof (listed_size _ _ _ _ L) as Sz.
  assert (Eb : b = a + size).
  { destruct (pass1_at _ _ _ _ _ K P) as (s1 & s2 & P1 & P2 & _). destruct (pass1_stmt_instr _ _ _ _ _ _ P2) as (md' & op' & size' & D' & M' & _ & ->).
    assert (p1_addr s1 = a) as Ea by (unfold address in Aa; rewrite P1 in Aa; cbn in Aa; congruence).
    assert (p1_env s1 = e) as Ee by (unfold labels_at in La; rewrite P1 in La; cbn in La; congruence).
    rewrite Ea, Ee in *. rewrite D in D'. injection D' as <-. rewrite H in M'. injection M' as <- <-.
    unfold address in Ab. rewrite (firstn_next _ _ _ _ K) in Ab. destruct (body_split _ _ _ K) as (_ & Nn & Ns).
    unfold pass1_program in *. rewrite pass1_app, P1 in Ab by exact Nn. rewrite pass1_cons in Ab by exact Ns. rewrite P2 in Ab. cbn in Ab. congruence. }
  destruct Ho as [A0 Ho].
  assert (Rd : forall i y, nth_error (opc :: bs) i = Some y -> Z.of_nat i < size -> mem (a + Z.of_nat i) = y).
  { intros i y Hi Li. apply Ho in Hi. specialize (In_ (a + Z.of_nat i) ltac:(lia)).
    replace (Z.to_nat (a + Z.of_nat i)) with (Z.to_nat a + i)%nat in In_ by lia. congruence. }
  exists md. assert (mem a = opc) as ->. { replace a with (a + Z.of_nat 0) by lia. apply Rd; [reflexivity|]. destruct md; cbn in Sz; lia. }
  split; [rewrite (decode_listed _ _ _ _ L); do 2 f_equal; lia|]. split; [exact D|].
  unfold meant. unfold encode_operand in En. cbn [it_expr it_mode it_addr] in En.
  destruct (operand_expr op) as [x|] eqn:Eo.
  2:{ assert (md = ACC \/ md = IMP) as [-> | ->]; [|reflexivity|reflexivity].
      unfold denoted_mode in D. destruct op; try discriminate; destruct (is_branch_name m), (is_jump_name m); try discriminate.
      + destruct (existsb _ _); injection D as <-; auto.
      + injection D as <-; auto. }
  destruct (eval fin x) as [v|] eqn:Ev; [|discriminate].
  assert (Hv0 : 0 <= v).
  { pose proof (program_16 _ _ HM) as S16. destruct x as [w|n].
    - cbn in Ev. injection Ev as ->.
      assert (In (SInstr lab m op) p) as I.
      { apply nth_error_In in K. clear - K. induction p as [|s p IH]; [destruct K|].
        destruct s; cbn [body] in K; try destruct K as [<- |K]; try (left; reflexivity); try (right; apply IH; exact K). destruct K. }
      rewrite Forall_forall in S16. specialize (S16 _ I). cbn in S16. rewrite Eo in S16. cbn in S16. lia.
    - destruct (program_bounds _ _ _ (program_16 _ _ HM) P) as [_ Bd]. unfold labels in Lf. rewrite P in Lf. injection Lf as <-.
      apply (Bd n v Ev). }
  assert (Sm : match md with IMM | ZP | ZPX | ZPY | INDX | INDY => v <= 255 | ACC | IMP => False
                           | REL => match x with Num _ => v <= 255 | Lab _ => True end | _ => True end).
  { destruct (value_of (with_own lab a e) op) as [w|] eqn:W.
    - assert (w = v) as ->.
      { unfold value_of in W. rewrite Eo in W. destruct x as [u|n]; cbn in W, Ev; [congruence|]. apply Ex in W. congruence. }
      pose proof (denoted_small _ _ _ _ D) as Sm.
      pose proof (denoted_narrow _ _ _ _ D) as Nw. rewrite Eo in Nw.
      destruct md; auto; try (discriminate (Nw (or_introl eq_refl))); try (discriminate (Nw (or_intror eq_refl))).
      destruct (denoted_rel _ _ _ D) as (B & y & ->). cbn in Eo. injection Eo as ->. destruct x as [u|n]; [|exact I]. cbn in Rk. cbn in Ev. injection Ev as <-. apply Rk. exact B.
    - pose proof (denoted_open _ _ _ D ltac:(congruence)) as Sm. destruct md; try (destruct Sm; fail); auto.
      destruct x as [u|n]; [|exact I]. exfalso. unfold value_of in W. rewrite Eo in W. discriminate. }
  assert (R1 : forall y r, bs = y :: r -> mem (word (a + 1)) = y).
  { intros y r ->. rewrite word_small by (destruct md; cbn in Sz, Sm; lia). apply (Rd 1%nat y eq_refl). destruct md; cbn in Sz, En, Sm; try lia; destruct Sm. }
  assert (R2 : forall y z r, bs = y :: z :: r -> mem (word (a + 2)) = z).
  { intros y z r E. assert (size = 3) as S3; [|rewrite word_small by lia; apply (Rd 2%nat z); [rewrite E; reflexivity|lia]]. subst bs. destruct md; cbn in Sz, Sm; try lia; try discriminate; try (destruct Sm; fail).
    destruct x; [destruct (v <=? 255); discriminate|]. cbn zeta in En. destruct (_ && _); discriminate. }
  unfold operand_of. destruct md; try (destruct Sm; fail);
    try (injection En as <-; rewrite (R1 _ _ eq_refl), (R2 _ _ _ eq_refl), word_lo_hi by exact Hv0; destruct x; reflexivity);
    try (injection En as <-; rewrite (R1 _ _ eq_refl); unfold lo; rewrite word_small, (Z.mod_small v 256) by lia; destruct x; reflexivity).
  destruct x as [u|n].
  - destruct (Z.leb_spec v 255); [|lia]. injection En as <-. rewrite (R1 _ _ eq_refl). reflexivity.
  - cbn zeta in En. destruct (Z.leb_spec (-128) (v - (a + 2))), (Z.leb_spec (v - (a + 2)) 127); try discriminate.
    cbn [andb] in En. injection En as <-. rewrite (R1 _ _ eq_refl). destruct (signed_mod (v - (a + 2))) as [_ K2]; [lia|].
    rewrite K2. do 3 f_equal. lia.
Qed.

(** a byte behind the opcode is in the file *)
Lemma instruction_in_file : forall file src p o k lab m op, program_means src p -> small src ->
  gaia file src = Ret o -> exit_code o = 0 -> monotone AsBuilt p -> nth_error (body p) k = Some (SInstr lab m op) ->
  exists a b e fin, address AsBuilt p k = Some a /\ address AsBuilt p (S k) = Some b /\ labels_at AsBuilt p k = Some e /\
    labels AsBuilt p = Some fin /\ 0 <= a < b /\ b <= Z.of_nat (List.length (binary o)).
Proof.
  intros file src p o k lab m op HM HB HG HE Mo K.
  destruct (assembled _ _ _ _ HM HB HG HE) as (st & code & A & R & P & C & _ & _ & Im). specialize (Im Mo).
  destruct (instr_piece _ _ _ _ _ _ _ R K) as (a & e & fin & md & opc & size & bs & E1 & E2 & E3 & Ex & D & H & En & N).
  destruct (C27_ascending_partial _ _ _ _ _ _ _ _ HM HB HG HE Mo K) as (_ & a' & bs0 & _ & Aa' & _ & A0 & _).
  rewrite E1 in Aa'. injection Aa' as <-.
  destruct (placed_at p st code A k _ K eq_refl) as (q & Nq & _ & _ & Ad & Ab).
  rewrite E1 in Ad. injection Ad as Ad. exists a, (pl_end q), e, fin. do 4 (split; [assumption|]).
  destruct (good_done p st code A (program_16 _ _ HM)) as (G & F & Ec).
  rewrite Forall_forall in F. destruct (F q (nth_error_In _ _ Nq)) as (bs' & Fb). destruct Fb as [Fb Fs].
  pose proof (code_at st _ _ _ _ Nq (conj Fb Fs)) as Cq. rewrite Ec in Cq.
  assert (Le : it_addr (pl_item q) + zlen (it_opcode (pl_item q) :: bs') <= image_end code).
  { assert (Hi : image_end code <= image_end code) by lia. apply image_end_le in Hi; [|apply image_end_pos].
    rewrite Forall_forall in Hi. apply (Hi _ (nth_error_In _ _ Cq)). }
  destruct Im as [Ln _]. unfold pl_end. unfold zlen in *. cbn [List.length] in Le. lia.
Qed.

(** ** One step *)
Definition Runnable (file src : text) (p : list stmt) (o : Outcome) : Prop :=
  program_means src p /\ small src /\ gaia file src = Ret o /\ exit_code o = 0 /\ monotone AsBuilt p /\
  Forall regular (body p) /\ Z.of_nat (List.length (binary o)) <= 65536.

Theorem C76_step : forall c file src p o pc s after, Runnable file src p o -> intact p (memory c s) (binary o) ->
  source_step c p (pc, s) after <-> at_instruction p pc /\ cpu_step c (pc, s) after.
Proof.
  intros c file src p o pc s after (HM & HB & HG & HE & Mo & Rg & Ln) Ld. unfold source_step, cpu_step. split.
  - intros (k & lab & m & op & next & e & fin & md & v & K & Aa & Ab & La & Lf & D & Mt & Ef).
    split; [exists k, lab, m, op; auto|].
    destruct (instruction_in_file _ _ _ _ _ _ _ _ HM HB HG HE Mo K) as (a' & b' & e' & fin' & A1 & A2 & _ & _ & A3 & A4).
    rewrite Aa in A1. injection A1 as <-. rewrite Ab in A2. injection A2 as <-.
    destruct (C76_instruction _ _ _ _ _ _ _ _ (memory c s) _ _ _ _ HM HB HG HE Mo Rg K Aa Ab La Lf) as (md' & Dc & D' & Mt'); [lia|intros x Hx; apply (Ld k); exists lab, m, op, pc; eexists; eauto|].
    rewrite D in D'. injection D' as <-. rewrite Mt in Mt'. injection Mt' as ->.
    exists m, md, (next - pc). split; [exact Dc|]. replace (pc + (next - pc)) with next by lia. exact Ef.
  - intros ((k & lab & m & op & K & Aa) & m' & md & size & Dc & Ef).
    destruct (instruction_in_file _ _ _ _ _ _ _ _ HM HB HG HE Mo K) as (a' & b & e & fin & A1 & Ab & La & Lf & A3 & A4).
    rewrite Aa in A1. injection A1 as <-.
    destruct (C76_instruction _ _ _ _ _ _ _ _ (memory c s) _ _ _ _ HM HB HG HE Mo Rg K Aa Ab La Lf) as (md' & Dc' & D' & Mt'); [lia|intros x Hx; apply (Ld k); exists lab, m, op, pc; eexists; eauto|].
    rewrite Dc in Dc'. injection Dc' as -> -> ->.
    exists k, lab, m, op, b, e, fin, md', (operand_of (memory c s) pc md'). do 7 (split; [assumption|]).
    replace (pc + (b - pc)) with b in Ef by lia. exact Ef.
Qed.

(** ** Whole runs: as long as the code is not overwritten *)
Theorem C76_runs : forall c file src p o n x y, Runnable file src p o ->
  steps (source_step c p) (fun z => intact p (memory c (snd z)) (binary o)) n x y <->
  steps (cpu_step c) (fun z => intact p (memory c (snd z)) (binary o) /\ at_instruction p (fst z)) n x y.
Proof.
  intros c file src p o n x y R. split.
  - intro H. induction H as [x|n [pc s] y z Hx Hs H IH]; [constructor|]. cbn [snd] in Hx.
    apply (C76_step c _ _ _ _ _ _ _ R Hx) in Hs. destruct Hs as [Ha Hs]. econstructor; [split; [exact Hx|exact Ha]|exact Hs|exact IH].
  - intro H. induction H as [x|n [pc s] y z [Hx Ha] Hs H IH]; [constructor|]. cbn [fst snd] in Hx, Ha.
    econstructor; [exact Hx| |exact IH]. apply (C76_step c _ _ _ _ _ _ _ R Hx). auto.
Qed.

(** ** A case: a loop and a jump to a later label, on a processor with the register X and a flag *)
Definition loop_lines : list text :=
  [T ".ORG $0200"; T "N = 3"; T "START LDX #N"; T "LOOP: DEX ; count down"; T " BNE LOOP"; T " JMP DONE"; T " NOP"; T "DONE STX $10"; T " BEQ START"].

(** state: the register X and the bytes written so far, latest first, over a ROM that holds the binary *)
Definition toy (rom : list Z) : cpu :=
  mkCpu (Z * list (Z * Z))
    (fun s x => match find (fun w => fst w =? x) (snd s) with Some (_, b) => b | None => nth (Z.to_nat x) rom 0 end)
    (fun m md v next s =>
       match m, v with
       | "LDX"%string, Some v => Some (next, (v, snd s))
       | "DEX"%string, _ => Some (next, ((fst s - 1) mod 256, snd s))
       | "BNE"%string, Some t => Some (if fst s =? 0 then next else t, s)
       | "BEQ"%string, Some t => Some (if fst s =? 0 then t else next, s)
       | "JMP"%string, Some t => Some (t, s)
       | "STX"%string, Some a => Some (next, (fst s, (a, fst s) :: snd s))
       | "NOP"%string, _ => Some (next, s)
       | _, _ => None
       end).

(** executing a function step by step *)
Fixpoint iterate {A} (f : A -> option A) (n : nat) (x : A) : option A :=
  match n with O => Some x | S n' => match f x with Some y => iterate f n' y | None => None end end.

Definition cpu_fun (c : cpu) (x : Z * state c) : option (Z * state c) :=
  match decode (memory c (snd x) (fst x)) with
  | Some (m, md, size) => effect c m md (operand_of (memory c (snd x)) (fst x) md) (word (fst x + size)) (snd x)
  | None => None
  end.

Example C76_case : exists p o, Runnable (T "a.asm") (join loop_lines) p o /\
  let c := toy (binary o) in
  iterate (cpu_fun c) 8 (0x200, (77, [])) = Some (0x209, (0, [])) /\
  iterate (cpu_fun c) 10 (0x200, (77, [])) = Some (0x200, (0, [(0x10, 0)])) /\
  at_instruction p 0x200 /\ intact p (memory c (77, [(0, 1)])) (binary o).
Proof.
  destruct (statements loop_lines) as [p|] eqn:E; [|vm_compute in E; discriminate].
  destruct (program_check loop_lines p ltac:(vm_compute; reflexivity) E) as (_ & _ & M).
  vm_compute in E. injection E as <-.
  eexists _, _. split.
  { split; [exact M|]. split; [vm_compute; reflexivity|]. split; [vm_compute; reflexivity|]. split; [reflexivity|].
    split; [vm_compute; repeat split; discriminate|]. split; [|vm_compute; discriminate].
    repeat constructor; cbn; intros; discriminate. }
  cbn zeta. split; [vm_compute; reflexivity|]. split; [vm_compute; reflexivity|].
  split; [exists 2%nat; do 3 eexists; split; vm_compute; reflexivity|].
  intros k x (lab & m & op & a & b & K & A1 & A2 & Hx).
  assert (0x200 <= x < 0x20D).
  { do 10 (destruct k as [|k]; [vm_compute in A1, A2; injection A1 as <-; injection A2 as <-; cbn in K; try discriminate; lia|]).
    assert (Some (SInstr lab m op) <> None) as Q by discriminate. rewrite <- K in Q. apply nth_error_Some in Q. vm_compute in Q. lia. }
  cbn [memory toy snd find fst]. destruct (Z.eqb_spec 0 x); [lia|]. apply nth_error_nth'. cbn [binary].
  match goal with |- (_ < List.length ?l)%nat => let n := eval vm_compute in (List.length l) in change (List.length l) with n end. lia.
Qed.
