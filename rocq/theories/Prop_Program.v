(** Prop_Program.v -- C20, C25-C29, C35, C43: what the assembler makes of a program. *)
From Verif Require Import Base Proof_Base Model_Main Spec_Isa Spec_Text Spec_Asm
  Spec_Report Proof_Opcode Proof_Lex2 Proof_Core Proof_Sim2 Proof_Run Proof_Source Proof_Modes Spec_Diag Spec_Prog Proof_Diag Proof_Whole Proof_Ref Proof_Image
  Proof_Regular Proof_At Proof_Prog Proof_Check.

(** ** C26: agreement with the reference assembler *)
(** as built: with the two departures of [AsBuilt] *)
Theorem C26_as_built : forall file src p, program_means src p -> small src ->
  exists o, gaia file src = Ret o /\
    (exit_code o = 0 <-> exists code, reference AsBuilt p = Some code) /\
    forall code, reference AsBuilt p = Some code -> monotone AsBuilt p -> is_image code (binary o).
Proof.
  intros file src p HM HB. destruct (program_cases file src p HM HB) as
    [(st & code & bin & A & B & C & D & E & F & G)|(n & m & w & o & lines & line & toks & A & B & C & D & _)].
  - eexists. split; [exact E|]. cbn [exit_code binary]. split; [split; [eauto|reflexivity]|].
    intros code' K M. rewrite B in K. injection K as <-. auto.
  - exists o. split; [exact C|]. rewrite D. split; [split; [discriminate|intros (code & K); congruence]|].
    intros code K. congruence.
Qed.

(** the documented rules: for a program without the two operand forms of [regular] *)
Theorem C26_agreement_partial : forall file src p, program_means src p -> small src -> Forall regular p ->
  exists o, gaia file src = Ret o /\
    (exit_code o = 0 <-> exists code, reference Documented p = Some code) /\
    forall code, reference Documented p = Some code -> monotone Documented p -> is_image code (binary o).
Proof.
  intros file src p HM HB HR. destruct (C26_as_built file src p HM HB) as (o & A & B & C).
  rewrite (reference_regular p HR) in *. exists o. split; [exact A|]. split; [exact B|].
  intros code K M. apply C; [exact K|]. apply monotone_regular; assumption.
Qed.

(** C26 as written fails, in three ways *)
(** the origin moves backwards: zero bytes are written over code *)
Theorem C26_refuted_image : exists file src p code o, program_means src p /\ reference Documented p = Some code /\
  gaia file src = Ret o /\ exit_code o = 0 /\ ~ is_image code (binary o).
Proof.
  set (lines := [T " NOP"; T ".ORG 3"; T " NOP"; T " NOP"; T " NOP"; T ".ORG 0"; T " BRK"; T " NOP"; T " NOP"; T ".ORG 6"; T " JMP FWD"; T "FWD NOP"]).
  exists (T "a.asm"), (join lines). destruct (statements lines) as [p|] eqn:E; [|vm_compute in E; discriminate].
  destruct (program_check lines p ltac:(vm_compute; reflexivity) E) as (_ & _ & M).
  vm_compute in E. injection E as <-.
  eexists _, _, _. split; [exact M|]. split; [vm_compute; reflexivity|]. split; [vm_compute; reflexivity|].
  split; [reflexivity|]. intros [_ K]. specialize (K 3). revert K. clear. vm_compute. intro K.
  assert (Q : Some 0 = Some 234). { apply K. split; [intro Z; discriminate Z|reflexivity]. }
  discriminate Q.
Qed.

(** an operand form that is not in the instruction set is accepted *)
Theorem C26_refuted_accepts : exists file src p o, program_means src p /\ reference Documented p = None /\
  gaia file src = Ret o /\ exit_code o = 0.
Proof.
  set (lines := [T " JMP FWD,X"; T "FWD NOP"]).
  exists (T "a.asm"), (join lines). destruct (statements lines) as [p|] eqn:E; [|vm_compute in E; discriminate].
  destruct (program_check lines p ltac:(vm_compute; reflexivity) E) as (_ & _ & M).
  vm_compute in E. injection E as <-.
  eexists _, _. split; [exact M|]. split; [vm_compute; reflexivity|]. split; [vm_compute; reflexivity|reflexivity].
Qed.

Example C26_example : exists code, program_means (join demo) demo_stmts /\ small (join demo) /\ Forall regular demo_stmts /\
  reference Documented demo_stmts = Some code /\ monotone Documented demo_stmts /\ List.length code = 9%nat.
Proof.
  destruct demo_ok as (A & B & _). destruct (program_check _ _ B A) as (_ & _ & M).
  eexists. split; [exact M|]. split; [unfold small; vm_compute; reflexivity|].
  split; [|split; [vm_compute; reflexivity|split; [|reflexivity]]].
  - vm_compute. repeat constructor; try discriminate; intro; discriminate.
  - vm_compute. repeat split; try discriminate.
Qed.

(** ** C25: opcodes *)
(** every instruction of a successful program has a piece of code that starts with a
    documented opcode of its mnemonic; except JMP with an index register *)
Theorem C25_documented_partial : forall file src p o k lab m op, program_means src p -> small src ->
  gaia file src = Ret o -> exit_code o = 0 -> nth_error (body p) k = Some (SInstr lab m op) ->
  (m = "JMP"%string -> forall e, op <> ODirX e /\ op <> ODirY e) ->
  exists code a md opc bs, reference AsBuilt p = Some code /\
    nth_error code (Z.to_nat (count is_instr (firstn k (body p)))) = Some (a, opc :: bs) /\ documented m md opc.
Proof.
  intros file src p o k lab m op HM HB HG HE K HJ. destruct (assembled _ _ _ _ HM HB HG HE) as (st & code & _ & R & _).
  destruct (instr_piece _ _ _ _ _ _ _ R K) as (a & e & fin & md & opc & size & bs & _ & _ & _ & _ & D & H & _ & N).
  exists code, a, md, opc, bs. split; [exact R|]. split; [exact N|].
  destruct (has_mode_cases _ _ _ _ _ _ H) as [L|(_ & -> & _ & M & _)].
  - exists size. apply listed_in. exact L.
  - exfalso. destruct (denoted_indexed _ _ _ D M) as (x & [-> | ->]); destruct (HJ eq_refl x); congruence.
Qed.

(** C25 as written fails *)
Theorem C25_refuted : exists file src p o b, program_means src p /\ gaia file src = Ret o /\ exit_code o = 0 /\
  (exists m op, nth_error p 0 = Some (SInstr None m op)) /\ nth_error (binary o) 0 = Some b /\
  forall name md, ~ documented name md b.
Proof.
  set (lines := [T " JMP FWD,X"; T "FWD NOP"]).
  exists (T "a.asm"), (join lines). destruct (statements lines) as [p|] eqn:E; [|vm_compute in E; discriminate].
  destruct (program_check lines p ltac:(vm_compute; reflexivity) E) as (_ & _ & M).
  vm_compute in E. injection E as <-.
  eexists _, _, 0xF3. split; [exact M|]. split; [vm_compute; reflexivity|]. split; [reflexivity|].
  split; [do 2 eexists; reflexivity|]. split; [reflexivity|].
  intros name md (bytes & H).
  assert (F : forallb (fun '(_, _, op, _) => negb (op =? 0xF3)) table = true) by (vm_compute; reflexivity).
  rewrite forallb_forall in F. specialize (F _ H). discriminate.
Qed.

(** ** C35: the report of a successful assembly *)
Lemma total_code : forall e l code, complete AsBuilt e l = inl code -> Forall (fun p => exists bs, final_bytes e p bs) l ->
  total_size l = code_size code.
Proof.
  intros e l code H F. destruct (complete_code _ _ _ H) as [<- _]. clear H.
  induction F as [|p l (bs & Hb & Hs) F IH]; [reflexivity|]. cbn [total_size fold_right code_of]. fold (total_size l). rewrite IH.
  assert ((match (match pl_bytes p with Some bs0 => Some bs0 | None => encode_operand AsBuilt e (pl_item p) end) with
    | Some bs0 => (it_addr (pl_item p), it_opcode (pl_item p) :: bs0) | None => (it_addr (pl_item p), []) end)
    = (it_addr (pl_item p), it_opcode (pl_item p) :: bs)) as ->.
  { destruct (pl_bytes p); [subst|rewrite Hb]; reflexivity. }
  cbn [code_size fold_right snd]. fold (zlen (it_opcode (pl_item p) :: bs)). rewrite zlen_cons. unfold code_size. lia.
Qed.

Theorem C35_summary : forall file src p o, program_means src p -> small src ->
  gaia file src = Ret o -> exit_code o = 0 ->
  exists code, reference AsBuilt p = Some code /\
    SuccessReport (code_size code) (count defines_label (body p)) (stdout o).
Proof.
  intros file src p o HM HB HG HE. destruct (assembled _ _ _ _ HM HB HG HE) as (st & code & A & R & P & C & S & _).
  exists code. split; [exact R|]. rewrite S. unfold SuccessReport.
  change (summary (total_size (d_done st)) (zlen (d_env st)) = summary (code_size code) (count defines_label (body p))).
  pose proof (diag_from_good p 1 (mkD 0 [] []) (Forall_impl _ stmt16_ok (program_16 _ _ HM)) good_init) as Gd.
  fold (diagnose AsBuilt p) in Gd. rewrite A in Gd.
  pose proof (diagnose_reference AsBuilt p) as DR. rewrite A in DR. destruct DR as (_ & _ & Sd & _).
  destruct (accepted_good _ _ Gd Sd C) as (_ & F & _).
  rewrite (total_code _ _ _ C F). f_equal.
  destruct (diagnose_state _ _ _ _ _ _ A) as [Ac _]. destruct (state_after_env _ _ _ Ac) as [L _]. exact L.
Qed.
