(** Proof_Opcode.v -- the opcode tables (C01, C02). *)
From Verif Require Import Base Proof_Base Model_Opcode Spec_Isa Spec_Link.

Definition all_modes : list mode :=
  [IMM; ZP; ZPX; ZPY; ABS; ABSX; ABSY; IND; INDX; INDY; ACC; IMP; REL].

Definition all_mnemonics : list Mnemonic :=
  [ADC; AND; ASL; BCC; BCS; BEQ; BIT; BMI; BNE; BPL; BRK; BVC; BVS; CLC; CLD; CLI;
   CLV; CMP; CPX; CPY; DEC; DEX; DEY; EOR; INC; INX; INY; JMP; JSR; LDA; LDX; LDY;
   LSR; NOP; ORA; PHA; PHP; PLA; PLP; ROL; ROR; RTI; RTS; SBC; SEC; SED; SEI; STA;
   STX; STY; TAX; TAY; TSX; TXA; TXS; TYA].

Lemma all_modes_in : forall md, In md all_modes.
Proof. intros []; cbn; tauto. Qed.

Lemma mnemonic_in : forall m n, mnemonic_name m = Some n -> In m all_mnemonics.
Proof. intros [] n H; cbn in *; try discriminate; tauto. Qed.

Lemma mode_eqb_eq : forall a b, mode_eqb a b = true <-> a = b.
Proof. intros [] []; cbn; split; congruence. Qed.

Lemma listed_in : forall n d op b, listed n d = Some (op, b) -> In (n, d, op, b) table.
Proof.
  intros n d op b H. unfold listed in H.
  destruct (find _ table) as [[[[n' d'] op'] b']|] eqn:E; [|discriminate].
  injection H as -> ->. apply find_some in E. destruct E as [E1 E2].
  apply andb_true_iff in E2. destruct E2 as [E2 E3].
  apply String.eqb_eq in E2. apply mode_eqb_eq in E3. subst. exact E1.
Qed.

Lemma in_listed : forall n d op b, In (n, d, op, b) table -> listed n d = Some (op, b).
Proof.
  assert (K : Forall (fun '(n, d, op, b) => listed n d = Some (op, b)) table).
  { unfold table. repeat (constructor; [reflexivity|]). constructor. }
  intros. rewrite Forall_forall in K. apply (K (n, d, op, b)). exact H.
Qed.

Lemma documented_listed : forall n d op, documented n d op <-> exists b, listed n d = Some (op, b).
Proof.
  intros. unfold documented. split; intros [b H]; exists b;
    [apply in_listed|apply listed_in]; exact H.
Qed.

Definition opcode_check (m : Mnemonic) (md : mode) : bool :=
  match mnemonic_name m with
  | None => true
  | Some n =>
    forallb (fun bf =>
      match listed n md with
      | Some (op, _) => get_opcode (mkInstr m bf (flag_of md) 0) =? op
      | None => get_opcode (mkInstr m bf (flag_of md) 0) =? ERROR_ILLEGAL_ADDRESSING_MODE
      end) [0]
  end.

Lemma opcode_check_all :
  forallb (fun m => forallb (opcode_check m) all_modes) all_mnemonics = true.
Proof. vm_compute. reflexivity. Qed.

Lemma get_opcode_fields : forall m bf bf' fl o o',
  get_opcode (mkInstr m bf fl o) = get_opcode (mkInstr m bf' fl o').
Proof. intros [] *; reflexivity. Qed.

Lemma get_opcode_listed : forall m n md bf o, mnemonic_name m = Some n ->
  get_opcode (mkInstr m bf (flag_of md) o) =
  match listed n md with Some (op, _) => op | None => ERROR_ILLEGAL_ADDRESSING_MODE end.
Proof.
  intros m n md bf o Hn.
  pose proof opcode_check_all as K. rewrite forallb_forall in K.
  specialize (K m (mnemonic_in m n Hn)). rewrite forallb_forall in K.
  specialize (K md (all_modes_in md)). unfold opcode_check in K. rewrite Hn in K.
  cbn [forallb] in K. rewrite andb_true_r in K.
  rewrite (get_opcode_fields m bf 0 _ o 0).
  destruct (listed n md) as [[op b]|]; apply Z.eqb_eq in K; exact K.
Qed.

(** a flag that is not the flag of a mode has no opcode *)
Lemma get_opcode_other : forall m n fl bf o, mnemonic_name m = Some n ->
  (forall md, fl <> flag_of md) ->
  get_opcode (mkInstr m bf fl o) = ERROR_ILLEGAL_ADDRESSING_MODE.
Proof.
  intros m n fl bf o Hn H.
  pose proof (H IMM) as H1; pose proof (H ZP) as H2; pose proof (H ZPX) as H3;
  pose proof (H ZPY) as H4; pose proof (H ABS) as H5; pose proof (H ABSX) as H6;
  pose proof (H ABSY) as H7; pose proof (H IND) as H8; pose proof (H INDX) as H9;
  pose proof (H INDY) as H10; pose proof (H ACC) as H11; pose proof (H IMP) as H12;
  pose proof (H REL) as H13.
  cbn [flag_of] in *.
  apply Z.eqb_neq in H1, H2, H3, H4, H5, H6, H7, H8, H9, H10, H11, H12, H13.
  destruct m; try discriminate Hn; cbv beta iota delta [get_opcode i_mnemonic i_bitflag];
    match goal with |- ?f _ = _ => unfold f end; cbn [switch];
    rewrite ?H1, ?H2, ?H3, ?H4, ?H5, ?H6, ?H7, ?H8, ?H9, ?H10, ?H11, ?H12, ?H13; reflexivity.
Qed.

Definition bitfield_check (m : Mnemonic) : bool :=
  match mnemonic_name m with
  | None => true
  | Some n =>
    (0 <=? get_addr_bitfield m) && (get_addr_bitfield m <? 8192) &&
    forallb (fun md => Bool.eqb (negb (Z.land (get_addr_bitfield m) (flag_of md) =? 0))
                                (match listed n md with Some _ => true | None => false end))
            all_modes
  end.

Lemma bitfield_check_all : forallb bitfield_check all_mnemonics = true.
Proof. vm_compute. reflexivity. Qed.

Lemma bitfield_spec : forall m n md, mnemonic_name m = Some n ->
  (Z.land (get_addr_bitfield m) (flag_of md) <> 0 <-> has_mode n md).
Proof.
  intros m n md Hn. pose proof bitfield_check_all as K. rewrite forallb_forall in K.
  specialize (K m (mnemonic_in m n Hn)). unfold bitfield_check in K. rewrite Hn in K.
  apply andb_true_iff in K. destruct K as [_ K]. rewrite forallb_forall in K.
  specialize (K md (all_modes_in md)). apply eqb_prop in K.
  unfold has_mode. split.
  - intro H. apply Z.eqb_neq in H. rewrite H in K. cbn in K.
    destruct (listed n md) as [[op b]|] eqn:E; [|discriminate].
    exists op, b. apply listed_in, E.
  - intros (op & b & H). apply in_listed in H. rewrite H in K.
    apply negb_true_iff, Z.eqb_neq in K. exact K.
Qed.

Lemma bitfield_range : forall m n, mnemonic_name m = Some n -> 0 <= get_addr_bitfield m < 8192.
Proof.
  intros m n Hn. pose proof bitfield_check_all as K. rewrite forallb_forall in K.
  specialize (K m (mnemonic_in m n Hn)). unfold bitfield_check in K. rewrite Hn in K.
  apply andb_true_iff in K. destruct K as [K _]. apply andb_true_iff in K.
  destruct K as [K1 K2]. apply Z.leb_le in K1. apply Z.ltb_lt in K2. lia.
Qed.

(** ** Mnemonics *)
Lemma str_to_mnemonic_name : forall m n, mnemonic_name m = Some n ->
  str_to_mnemonic (T n) = m.
Proof. intros [] n H; cbn in H; try discriminate; injection H as <-; vm_compute; reflexivity. Qed.

Lemma str_to_mnemonic_cases : forall w,
  (exists m n, mnemonic_name m = Some n /\ w = T n /\ str_to_mnemonic w = m) \/
  (str_to_mnemonic w = ILLEGAL_MNEMONIC /\ forall m n, mnemonic_name m = Some n -> w <> T n).
Proof.
  intro w.
  destruct (existsb (fun m => match mnemonic_name m with
                              | Some n => text_eqb (T n) w | None => false end) all_mnemonics) eqn:E.
  - left. apply existsb_exists in E. destruct E as (m & _ & E).
    destruct (mnemonic_name m) as [n|] eqn:Hn; [|discriminate].
    apply text_eqb_eq in E. subst w. exists m, n. repeat split; auto.
    apply str_to_mnemonic_name, Hn.
  - right. assert (K : forall m n, mnemonic_name m = Some n -> text_eqb (T n) w = false).
    { intros m n Hn. destruct (text_eqb (T n) w) eqn:F; auto.
      rewrite <- E. symmetry. apply existsb_exists. exists m. split; [eapply mnemonic_in; eauto|].
      rewrite Hn. exact F. }
    split.
    + unfold str_to_mnemonic.
      rewrite !(K ADC _ eq_refl), !(K AND _ eq_refl), !(K ASL _ eq_refl), !(K BCC _ eq_refl),
       !(K BCS _ eq_refl), !(K BEQ _ eq_refl), !(K BIT _ eq_refl), !(K BMI _ eq_refl),
       !(K BNE _ eq_refl), !(K BPL _ eq_refl), !(K BRK _ eq_refl), !(K BVC _ eq_refl),
       !(K BVS _ eq_refl), !(K CLC _ eq_refl), !(K CLD _ eq_refl), !(K CLI _ eq_refl),
       !(K CLV _ eq_refl), !(K CMP _ eq_refl), !(K CPX _ eq_refl), !(K CPY _ eq_refl),
       !(K DEC _ eq_refl), !(K DEX _ eq_refl), !(K DEY _ eq_refl), !(K EOR _ eq_refl),
       !(K INC _ eq_refl), !(K INX _ eq_refl), !(K INY _ eq_refl), !(K JMP _ eq_refl),
       !(K JSR _ eq_refl), !(K LDA _ eq_refl), !(K LDX _ eq_refl), !(K LDY _ eq_refl),
       !(K LSR _ eq_refl), !(K NOP _ eq_refl), !(K ORA _ eq_refl), !(K PHA _ eq_refl),
       !(K PHP _ eq_refl), !(K PLA _ eq_refl), !(K PLP _ eq_refl), !(K ROL _ eq_refl),
       !(K ROR _ eq_refl), !(K RTI _ eq_refl), !(K RTS _ eq_refl), !(K SBC _ eq_refl),
       !(K SEC _ eq_refl), !(K SED _ eq_refl), !(K SEI _ eq_refl), !(K STA _ eq_refl),
       !(K STX _ eq_refl), !(K STY _ eq_refl), !(K TAX _ eq_refl), !(K TAY _ eq_refl),
       !(K TSX _ eq_refl), !(K TXA _ eq_refl), !(K TXS _ eq_refl), !(K TYA _ eq_refl).
      reflexivity.
    + intros m n Hn. apply K in Hn. apply text_eqb_neq in Hn. congruence.
Qed.

Definition names_check : bool :=
  forallb (fun '(n, _, _, _) => existsb (fun m => match mnemonic_name m with
                                                  | Some n' => String.eqb n n' | None => false end)
                                        all_mnemonics) table.

Lemma is_name_mnemonic : forall n, is_name n <-> exists m, mnemonic_name m = Some n.
Proof.
  intro n. split.
  - intros (md & op & b & H).
    assert (K : names_check = true) by (vm_compute; reflexivity).
    unfold names_check in K. rewrite forallb_forall in K.
    apply K in H. apply existsb_exists in H. destruct H as (m & _ & H). exists m.
    destruct (mnemonic_name m) as [n'|]; [|discriminate]. apply String.eqb_eq in H. congruence.
  - intros [m Hm].
    assert (K : forallb (fun m => match mnemonic_name m with
                  | Some n => existsb (fun md => match listed n md with Some _ => true
                                                 | None => false end) all_modes
                  | None => true end) all_mnemonics = true) by (vm_compute; reflexivity).
    rewrite forallb_forall in K. specialize (K m (mnemonic_in _ _ Hm)). rewrite Hm in K.
    apply existsb_exists in K. destruct K as (md & _ & K).
    destruct (listed n md) as [[op b]|] eqn:E; [|discriminate].
    exists md, op, b. apply listed_in, E.
Qed.

Lemma mnemonic_name_inj : forall m m' n, mnemonic_name m = Some n -> mnemonic_name m' = Some n -> m = m'.
Proof.
  intros. rewrite <- (str_to_mnemonic_name m n H). apply str_to_mnemonic_name, H0.
Qed.

Lemma T_inj : forall a b, T a = T b -> a = b.
Proof.
  intros a b H. unfold T in H.
  rewrite <- (string_of_list_ascii_of_string a), <- (string_of_list_ascii_of_string b), H.
  reflexivity.
Qed.

Lemma flag_of_inj : forall a b, flag_of a = flag_of b -> a = b.
Proof. intros [] []; cbn; intro H; try reflexivity; discriminate. Qed.

(** sizes *)
Lemma listed_size : forall n md op b, listed n md = Some (op, b) -> b = 1 + operand_bytes md.
Proof.
  intros n md op b H. apply listed_in in H.
  assert (K : forallb (fun '(_, d, _, b) => b =? 1 + operand_bytes d) table = true)
    by (vm_compute; reflexivity).
  rewrite forallb_forall in K. apply K in H. apply Z.eqb_eq in H. exact H.
Qed.

Lemma listed_byte : forall n md op b, listed n md = Some (op, b) -> 0 <= op < 256.
Proof.
  intros n md op b H. apply listed_in in H.
  assert (K : forallb (fun '(_, _, o, _) => in_range 0 o 255) table = true)
    by (vm_compute; reflexivity).
  rewrite forallb_forall in K. apply K in H. apply in_range_spec in H. lia.
Qed.

(** decoding inverts the table *)
Lemma decode_listed : forall n md op b, listed n md = Some (op, b) -> decode op = Some (n, md, b).
Proof.
  intros n md op b H. apply listed_in in H.
  assert (K : Forall (fun '(n, d, op, b) => decode op = Some (n, d, b)) table).
  { unfold table. repeat (constructor; [reflexivity|]). constructor. }
  rewrite Forall_forall in K. apply (K (n, md, op, b)). exact H.
Qed.
