(** Prop_Unit.v -- the code generator function by function: C22 (branch offsets) and C23
    (the bytes of an instruction). *)
From Verif Require Import Base Proof_Base Model_Opcode Model_Error Model_Lexer Model_SymbolTable
  Model_Parser Model_ForwardRef Model_Generator Spec_Isa Spec_Text Spec_Asm Spec_Link Spec_Report Spec_Prog
  Proof_Opcode Proof_Error Proof_Core Proof_Modes Proof_Diag Proof_Image Prop_Code Prop_Lines.

(** ** C22: the offset byte of a branch at [pc] to [dest].  The addresses are such that the
    subtractions do not overflow; the program's addresses are. *)
Definition address (a : Z) : Prop := 0 <= a <= 0x3FFFFFFF.

Theorem C22_offset : forall pc dest, address pc -> address dest ->
  (-128 <= dest - (pc + 2) <= 127 ->
     exists b, calc_branch_offset pc dest = Ret b /\ 0 <= b < 256 /\ pc + 2 + signed_byte b = dest) /\
  (~ (-128 <= dest - (pc + 2) <= 127) -> calc_branch_offset pc dest = Ret ERROR_TOO_BIG_OFFSET).
Proof.
  unfold address. intros pc dest Hp Hd. unfold calc_branch_offset.
  rewrite (int_of_ok (dest - pc)) by (unfold INT_MIN, INT_MAX; lia). cbn [bind].
  rewrite (int_of_ok (dest - pc - 2)) by (unfold INT_MIN, INT_MAX; lia). cbn [bind].
  replace (dest - pc - 2) with (dest - (pc + 2)) by lia. set (d := dest - (pc + 2)) in *.
  rewrite Z.land_comm. change 255 with (Z.ones 8). rewrite Z.land_ones by lia. change (2 ^ 8) with 256.
  split; intro H.
  - destruct (signed_mod d H) as [B1 B2]. exists (d mod 256). split; [|split; [exact B1|lia]].
    destruct (Z.leb_spec dest pc).
    + destruct (Z.ltb_spec d (-128)); [lia|reflexivity].
    + destruct (Z.ltb_spec 127 d); [lia|reflexivity].
  - destruct (Z.leb_spec dest pc).
    + destruct (Z.ltb_spec d (-128)); [reflexivity|]. lia.
    + destruct (Z.ltb_spec 127 d); [reflexivity|]. lia.
Qed.

(** ** C23 *)
(** [n] bytes of the number [v], low byte first *)
Fixpoint little_endian (n : nat) (v : Z) : list Z :=
  match n with O => [] | S k => v mod 256 :: little_endian k (v / 256) end.

(** the operand of an instruction in the mode [md]: none for the implied and accumulator
    modes, where the token, if any, is the register A; else a token with a value *)
Definition operand_of (md : mode) (op : option Token) (v : Z) : Prop :=
  match op with
  | None => operand_bytes md = 0
  | Some t => if ty_eqb (tk_type t) TOKEN_ACCUMULATOR then operand_bytes md = 0
              else 0 < operand_bytes md /\ tk_value t = v
  end.

Lemma land_byte : forall v, Z.land v 0xFF = v mod 256.
Proof. intro v. change 255 with (Z.ones 8). rewrite Z.land_ones by lia. reflexivity. Qed.
Lemma shift_byte : forall v, Z.shiftr v 8 = v / 256.
Proof. intro v. rewrite Z.shiftr_div_pow2 by lia. reflexivity. Qed.
Lemma mod_byte : forall v, is_byte (v mod 256).
Proof. intro v. unfold is_byte. apply Z.mod_pos_bound. lia. Qed.

Lemma flag_absolute : forall md, negb (Z.land (flag_of md) ABSOLUTE_FIELD =? 0) = (operand_bytes md =? 2).
Proof. intros []; reflexivity. Qed.

Lemma instr_eta : forall i, i = mkInstr (i_mnemonic i) (i_bitfield i) (i_bitflag i) (i_opcode i).
Proof. intros []; reflexivity. Qed.

Lemma opcode_of_instr : forall i m md opc, mnemonic_name (i_mnemonic i) = Some m -> i_bitflag i = flag_of md -> documented m md opc ->
  get_opcode i = opc /\ is_byte opc.
Proof.
  intros i m md opc Hm Hf (size & HIn). apply in_listed in HIn. destruct (listed_bytes _ _ _ _ HIn) as [_ B]. split; [|exact B].
  rewrite (instr_eta i), Hf, (get_opcode_listed _ _ _ _ _ Hm), HIn. reflexivity.
Qed.

Lemma write_bytes : forall f pc bs, 0 <= pc -> bs <> [] -> Forall is_byte bs ->
  overwritten (of_data f) (of_data (fold_left (fun f b => fputc b f) bs (fseek f pc))) pc bs.
Proof. intros. apply write_overwritten; assumption. Qed.

Theorem C23_generate : forall f i op pc m md opc v, 0 <= pc ->
  mnemonic_name (i_mnemonic i) = Some m -> i_bitflag i = flag_of md -> documented m md opc -> operand_of md op v ->
  exists f' i', generate_code f i op pc = (1 + operand_bytes md, f', i') /\
    overwritten (of_data f) (of_data f') pc (opc :: little_endian (Z.to_nat (operand_bytes md)) v).
Proof.
  intros f i op pc m md opc v Hpc Hm Hf Hd Ho.
  destruct (opcode_of_instr _ _ _ _ Hm Hf Hd) as [Hop Hb]. unfold generate_code. cbn [set_opcode i_opcode i_bitflag]. rewrite Hop, Hf, flag_absolute.
  destruct op as [t|]; cbn [operand_of] in Ho.
  - destruct (ty_eqb (tk_type t) TOKEN_ACCUMULATOR) eqn:E.
    + rewrite Ho. do 2 eexists. split; [reflexivity|]. apply (write_bytes f pc [opc]); [exact Hpc|discriminate|repeat constructor; apply Hb].
    + destruct Ho as [Ho <-]. assert (operand_bytes md = 1 \/ operand_bytes md = 2) as [E1|E1] by (destruct md; cbn in *; lia); rewrite E1.
      * do 2 eexists. split; [reflexivity|]. cbn [Z.to_nat Pos.to_nat Pos.iter_op little_endian]. rewrite land_byte.
        apply (write_bytes f pc [opc; tk_value t mod 256]); [exact Hpc|discriminate|]. repeat (constructor; [first [exact Hb|apply mod_byte]|]). constructor.
      * do 2 eexists. split; [reflexivity|]. cbn [Z.to_nat Pos.to_nat Pos.iter_op little_endian Nat.add]. rewrite land_byte, shift_byte.
        rewrite (fputc_mod (tk_value t / 256) ((tk_value t / 256) mod 256)) by (rewrite Z.mod_mod by lia; reflexivity).
        apply (write_bytes f pc [opc; tk_value t mod 256; (tk_value t / 256) mod 256]); [exact Hpc|discriminate|].
        repeat (constructor; [first [exact Hb|apply mod_byte]|]). constructor.
  - rewrite Ho. do 2 eexists. split; [reflexivity|]. apply (write_bytes f pc [opc]); [exact Hpc|discriminate|repeat constructor; apply Hb].
Qed.

(** the late bytes of a forward reference: the same, at the address of the instruction *)
Theorem C23_patch_jump : forall f ref lx dest m md opc, 0 <= fr_pc ref ->
  fr_operand_status ref = JUMP_FORWARD_REFERENCE -> mnemonic_name (i_mnemonic (fr_instr ref)) = Some m ->
  i_bitflag (fr_instr ref) = flag_of md -> documented m md opc -> operand_bytes md = 2 ->
  exists f', resolve_forward_ref f ref lx dest = Ret (3, f', []) /\
    overwritten (of_data f) (of_data f') (fr_pc ref) (opc :: little_endian 2 dest).
Proof.
  intros f ref lx dest m md opc Hpc Hs Hm Hf Hd H2. destruct (opcode_of_instr _ _ _ _ Hm Hf Hd) as [Hop Hb].
  unfold resolve_forward_ref. rewrite Hs, Hop, Hf.
  assert (N : negb (flag_of md =? 0) = true) by (destruct md; reflexivity). rewrite N.
  change (JUMP_FORWARD_REFERENCE =? BRANCH_FORWARD_REFERENCE) with false. change (JUMP_FORWARD_REFERENCE =? JUMP_FORWARD_REFERENCE) with true. cbv iota.
  eexists. split; [reflexivity|]. cbn [little_endian]. rewrite land_byte, shift_byte.
  rewrite (fputc_mod (dest / 256) ((dest / 256) mod 256)) by (rewrite Z.mod_mod by lia; reflexivity).
  apply (write_bytes f (fr_pc ref) [opc; dest mod 256; (dest / 256) mod 256]); [exact Hpc|discriminate|].
  repeat (constructor; [first [exact Hb|apply mod_byte]|]). constructor.
Qed.

Theorem C23_patch_branch : forall f ref lx dest m opc, address (fr_pc ref) -> address dest ->
  fr_operand_status ref = BRANCH_FORWARD_REFERENCE -> mnemonic_name (i_mnemonic (fr_instr ref)) = Some m ->
  i_bitflag (fr_instr ref) = flag_of REL -> documented m REL opc -> -128 <= dest - (fr_pc ref + 2) <= 127 ->
  exists f' b, resolve_forward_ref f ref lx dest = Ret (2, f', []) /\ 0 <= b < 256 /\ fr_pc ref + 2 + signed_byte b = dest /\
    overwritten (of_data f) (of_data f') (fr_pc ref) [opc; b].
Proof.
  intros f ref lx dest m opc Hpc Hdest Hs Hm Hf Hd Hr. destruct (opcode_of_instr _ _ _ _ Hm Hf Hd) as [Hop Hb].
  destruct (C22_offset _ _ Hpc Hdest) as [K _]. destruct (K Hr) as (b & Eb & Bb & Sb).
  unfold resolve_forward_ref. rewrite Hs, Hop, Hf, Eb. cbn [bind].
  change (BRANCH_FORWARD_REFERENCE =? BRANCH_FORWARD_REFERENCE) with true. cbv iota.
  destruct (Z.eqb_spec b ERROR_TOO_BIG_OFFSET) as [Y|_]; [unfold ERROR_TOO_BIG_OFFSET in Y; lia|].
  change (negb (flag_of REL =? 0)) with true. cbv iota.
  eexists. exists b. split; [reflexivity|]. split; [exact Bb|]. split; [exact Sb|]. rewrite land_byte, (Z.mod_small b 256 Bb).
  apply (write_bytes f (fr_pc ref) [opc; b]); [destruct Hpc; assumption|discriminate|].
  constructor; [exact Hb|]. constructor; [exact Bb|constructor].
Qed.

(** a value of two bytes is read back as it was *)
Theorem C23_little_endian : forall n v, 0 <= v < 256 ^ Z.of_nat n ->
  fold_right (fun b acc => b + 256 * acc) 0 (little_endian n v) = v.
Proof.
  induction n as [|n IH]; intros v H; cbn [little_endian fold_right].
  - change (256 ^ Z.of_nat 0) with 1 in H. lia.
  - rewrite IH.
    + pose proof (Z.div_mod v 256 ltac:(lia)). lia.
    + rewrite Nat2Z.inj_succ, Z.pow_succ_r in H by lia. split; [apply Z.div_pos; lia|]. apply Z.div_lt_upper_bound; lia.
Qed.

Definition lda_abs : Instruction := mkInstr LDA 0 (flag_of ABS) 0.
Definition number_token (v : Z) : Token := mkTok TOKEN_LITERAL [] v None None.
Example C23_example : mnemonic_name (i_mnemonic lda_abs) = Some "LDA"%string /\ documented "LDA" ABS 0xAD /\
  operand_of ABS (Some (number_token 0x1234)) 0x1234 /\
  of_data (snd (fst (generate_code (mkOFile [1; 2] 0) lda_abs (Some (number_token 0x1234)) 3))) = [1; 2; 0; 0xAD; 0x34; 0x12].
Proof.
  split; [reflexivity|]. split; [apply documented_listed; eexists; reflexivity|]. split; [cbn; lia|]. reflexivity.
Qed.
Example C22_unit_example : calc_branch_offset 0x600 0x602 = Ret 0 /\ calc_branch_offset 0x600 0x681 = Ret 0x7F /\
  calc_branch_offset 0x600 0x682 = Ret ERROR_TOO_BIG_OFFSET /\ calc_branch_offset 0x600 0x582 = Ret 0x80 /\
  calc_branch_offset 0x600 0x581 = Ret ERROR_TOO_BIG_OFFSET.
Proof. repeat split; vm_compute; reflexivity. Qed.
