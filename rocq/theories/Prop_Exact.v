(** Prop_Exact.v -- C43: which instructions can be read back from their bytes. *)
From Verif Require Import Base Proof_Base Model_Main Spec_Isa Spec_Text Spec_Asm
  Spec_Report Proof_Opcode Proof_Lex2 Proof_Core Proof_Sim2 Proof_Run Proof_Source Proof_Modes Spec_Diag Spec_Prog Proof_Diag Proof_Whole Proof_Ref Proof_Image
  Proof_Regular Proof_At Proof_Prog Proof_Kept Proof_Check Prop_Program Prop_Code.

(** the [bytes] at address [a] are the instruction [m op], by the documented opcode table; [fin] are the labels *)
Definition reads_back (a : Z) (fin : env) (m : string) (op : operand) (bytes : list Z) : Prop :=
  exists opc bs md, bytes = opc :: bs /\ decode opc = Some (m, md, Z.of_nat (List.length bytes)) /\
    match operand_expr op with
    | None => bs = []
    | Some x => exists v, eval fin x = Some v /\ operand_holds a md x v bs
    end.

(** a jump is not indexed; the number of a branch has one byte, the operand of other instructions has two *)
Definition operand_fits (fin : env) (m : string) (op : operand) : Prop :=
  (m = "JMP"%string -> forall e, op <> ODirX e /\ op <> ODirY e) /\
  forall x v, operand_expr op = Some x -> eval fin x = Some v ->
    if is_branch_name m then match x with Num _ => v <= 0xFF | Lab _ => True end else v <= 0xFFFF.

Lemma decode_jump : decode 0xF3 = None.
Proof. vm_compute. reflexivity. Qed.

Lemma rel_holds : forall r e a m opc size n v bs, encode_operand r e (mkItem a m REL opc size (Some (Lab n))) = Some bs -> eval e (Lab n) = Some v ->
  operand_holds a REL (Lab n) v bs.
Proof.
  intros r e a m opc size n v bs H Ev. unfold encode_operand in H. cbn [it_expr it_mode it_addr] in H. rewrite Ev in H. cbn [operand_holds].
  destruct (Z.leb_spec (-128) (v - (a + 2))), (Z.leb_spec (v - (a + 2)) 127); try discriminate.
  cbn [andb] in H. injection H as <-. destruct (signed_mod (v - (a + 2))) as [K1 K2]; [lia|].
  eexists. split; [reflexivity|]. split; [exact K1|]. rewrite K2. lia.
Qed.

Theorem C43_exact : forall file src p o k lab m op code fin a bytes, program_means src p -> small src ->
  gaia file src = Ret o -> exit_code o = 0 -> nth_error (body p) k = Some (SInstr lab m op) ->
  reference AsBuilt p = Some code -> labels AsBuilt p = Some fin -> nth_error code (instr_number p k) = Some (a, bytes) ->
  (reads_back a fin m op bytes <-> operand_fits fin m op).
Proof.
  intros file src p o k lab m op code fin a bytes HM HB HG HE K HR HF N.
  destruct (instr_piece _ _ _ _ _ _ _ HR K) as (a' & e & fin' & md & opc & size & bs & E1 & E2 & E3 & Ex & D & H & En & N').
  assert (N2 : Some (a, bytes) = Some (a', opc :: bs)) by (rewrite <- N; exact N'). injection N2 as -> ->. clear N'. rewrite HF in E3. injection E3 as <-.
  split.
  - intros (opc' & bs' & md' & Eb & Dc & Hold). injection Eb as <- <-.
    assert (L : listed m md = Some (opc, size)).
    { destruct (has_mode_cases _ _ _ _ _ _ H) as [L|(_ & _ & _ & _ & -> & _)]; [exact L|]. rewrite decode_jump in Dc. discriminate. }
    rewrite (decode_listed _ _ _ _ L) in Dc. injection Dc as <- Sz.
    split.
    + intros -> x. split; intros ->; unfold denoted_mode in D; cbn in D; injection D as <-; vm_compute in L; discriminate.
    + intros x v Eo Ev. rewrite Eo in Hold. destruct Hold as (v' & Ev' & Hold). rewrite Ev in Ev'. injection Ev' as <-.
      destruct (is_branch_name m) eqn:Br.
      * destruct (denoted_branch _ _ _ _ Br D) as (-> & y & ->). destruct x as [u|n]; [|exact Logic.I]. cbn [operand_holds] in Hold. destruct Hold as [_ Hold]. lia.
      * assert (md <> REL) by (intros ->; destruct (denoted_rel _ _ _ D); congruence).
        destruct md; try congruence; cbn [operand_holds] in Hold; try (destruct Hold as [_ Hold]; lia); destruct Hold as (l & h & _ & ? & ? & ?); lia.
  - intros [HJ Fit].
    destruct (C43_disassembles_partial _ _ _ _ _ _ _ _ HM HB HG HE K HJ) as (code' & fin'' & a'' & e'' & md' & opc' & bs' & R' & F' & A' & _ & N'' & Dc & Dm & Hold).
    rewrite HR in R'. injection R' as <-. rewrite HF in F'. injection F' as <-. rewrite N in N''. injection N'' as <- <- <-.
    exists opc, bs, md'. split; [reflexivity|]. split; [rewrite Dc; do 2 f_equal; cbn [List.length]; lia|].
    destruct (operand_expr op) as [x|] eqn:Eo; [|exact Hold]. destruct Hold as (v & Ev & Hold). exists v. split; [exact Ev|].
    specialize (Fit x v eq_refl Ev).
    destruct (is_branch_name m) eqn:Br.
    + destruct (denoted_branch _ _ _ _ Br Dm) as (-> & y & ->). destruct x as [u|n].
      * apply Hold; [lia|auto].
      * destruct (denoted_branch _ _ _ _ Br D) as (-> & _). eapply rel_holds; [exact En|exact Ev].
    + apply Hold; [exact Fit|discriminate].
Qed.

(** a branch with a number of two bytes: the bytes are those of another branch; a jump that is indexed: its opcode is
    not documented *)
Theorem C43_refuted : exists file src p o code fin,
  program_means src p /\ small src /\ gaia file src = Ret o /\ exit_code o = 0 /\ reference AsBuilt p = Some code /\ labels AsBuilt p = Some fin /\
  forall k, (k < 2)%nat -> exists lab m op a bytes, nth_error (body p) k = Some (SInstr lab m op) /\
    nth_error code (instr_number p k) = Some (a, bytes) /\ ~ reads_back a fin m op bytes.
Proof.
  set (lines := [T " BNE $1234"; T " JMP L,X"; T "L NOP"]).
  destruct (statements lines) as [p|] eqn:E; [|vm_compute in E; discriminate].
  destruct (program_check lines p ltac:(vm_compute; reflexivity) E) as (_ & _ & M).
  vm_compute in E. injection E as <-.
  assert (G : exists o, gaia (T "a.asm") (join lines) = Ret o /\ exit_code o = 0) by (eexists; split; [vm_compute; reflexivity|reflexivity]).
  destruct G as (o & G & X).
  eexists (T "a.asm"), (join lines), _, o, _, _. split; [exact M|]. split; [vm_compute; reflexivity|]. split; [exact G|]. split; [exact X|].
  split; [vm_compute; reflexivity|]. split; [vm_compute; reflexivity|].
  intros k Hk. destruct k as [|[|k]]; [| |lia].
  - eexists None, "BNE"%string, (ODir (Num 0x1234)), _, _. split; [reflexivity|]. split; [vm_compute; reflexivity|].
    intros (opc & bs & md & Eb & Dc & v & Ev & Hold). injection Eb as <- <-. vm_compute in Dc. injection Dc as <-. cbn in Ev. injection Ev as <-.
    destruct Hold as [Hold _]. discriminate.
  - eexists None, "JMP"%string, (ODirX (Lab (T "L"))), _, _. split; [reflexivity|]. split; [vm_compute; reflexivity|].
    intros (opc & bs & md & Eb & Dc & _). injection Eb as <- <-. vm_compute in Dc. discriminate.
Qed.
