(** Proof_Modes.v -- the lines of the documented grammar as the machine understands them,
    and the addressing modes their operands denote. *)
From Verif Require Import Base Proof_Base Model_Opcode Model_Error Model_Lexer Model_SymbolTable
  Model_Parser Model_ForwardRef Model_Generator Spec_Isa Spec_Text Spec_Asm Spec_Link
  Proof_Opcode Proof_Chars Proof_Lex1 Proof_Lex2 Proof_Core Proof_Parse Proof_Sim1 Prop_Table Proof_Sim2.

(** ** Grammar *)
Definition flags_op (o : operand) : flags :=
  match o with
  | ONone | ODir _ => mkFlags false false false false false
  | OAcc => mkFlags false false false false true
  | OImm _ => mkFlags false false false true false
  | ODirX _ => mkFlags true false false false false
  | ODirY _ => mkFlags false true false false false
  | OInd _ => mkFlags false false true false false
  | OIndX _ => mkFlags true false true false false
  | OIndY _ => mkFlags false true true false false
  end.

Definition tok_expr (e : expr) : tok := match e with Num v => TNumber v | Lab n => TLabel n end.

(** the operand token of an operand *)
Definition operand_token (o : operand) : option tok :=
  match o with
  | ONone => None
  | OAcc => Some TA
  | OImm e | ODir e | ODirX e | ODirY e | OInd e | OIndX e | OIndY e => Some (tok_expr e)
  end.

Lemma Expr_tok : forall t e, Expr t e -> t = tok_expr e /\ expr_tok t = true.
Proof. intros t e []; auto. Qed.

Lemma Operand_find : forall l o, Operand l o -> forall i,
  match operand_token o with
  | None => find_op i l = None
  | Some t => exists k, find_op i l = Some ((i + k)%nat, t) /\ nth_error l k = Some t
  end.
Proof.
  intros l o H i. destruct H as [| |t e He|t e He|t e He|t e He|t e He|t e He|t e He]; cbn;
    try (destruct He; cbn).
  all: try reflexivity.
  all: try (exists 0%nat; rewrite Nat.add_0_r; split; reflexivity).
  all: try (exists 1%nat; rewrite Nat.add_1_r; split; reflexivity).
Qed.

Lemma Operand_flags : forall l o n pre, Operand l o ->
  (forall t, In t pre -> exists nm, t = TLabel nm) ->
  flags_of (pre ++ TMnemonic n :: l) = flags_op o.
Proof.
  intros l o n pre H Hp. unfold flags_of. rewrite !existsb_app.
  assert (forall ty, ty <> TOKEN_LABEL -> existsb (is_ty ty) pre = false) as K.
  { intros ty Nt. apply not_true_is_false. intro E. apply existsb_exists in E. destruct E as (t & Ht & E).
    destruct (Hp t Ht) as (nm & ->). cbn in E. destruct ty; discriminate || congruence. }
  rewrite !K by discriminate. cbn [orb].
  destruct H as [| |t e He|t e He|t e He|t e He|t e He|t e He|t e He]; try (destruct He); reflexivity.
Qed.

Lemma Operand_comp : forall l o i ok, Operand l o -> comp_operand i l ok = inl ok.
Proof.
  intros l o i ok H.
  destruct H as [| |t e He|t e He|t e He|t e He|t e He|t e He|t e He]; try (destruct He); reflexivity.
Qed.

Lemma Operand_no_mnemonic : forall l o, Operand l o -> no_mnemonic l.
Proof.
  intros l o H n K.
  destruct H as [| |t e He|t e He|t e He|t e He|t e He|t e He|t e He]; try (destruct He); cbn in K;
    intuition discriminate.
Qed.

(** the statement a compiled line stands for *)
Definition lab_toks (lab : option text) : list tok := match lab with None => [] | Some n => [TLabel n] end.

Lemma Line_instr_inv : forall ts lab m o, Line ts (SInstr lab m o) ->
  exists l, ts = lab_toks lab ++ TMnemonic m :: l /\ Operand l o.
Proof. intros ts lab m o H. inversion H; subst; cbn; eauto. Qed.

Lemma Line_compile_instr : forall ts lab m o, Line ts (SInstr lab m o) ->
  exists op, compile ts = inl (CInstr lab (str_to_mnemonic (T m)) op (flags_op o)) /\
    match operand_token o with
    | None => op = None
    | Some t => exists i, op = Some (i, t) /\ nth_error ts i = Some t
    end.
Proof.
  intros ts lab m o H. destruct (Line_instr_inv _ _ _ _ H) as (l & -> & Ho).
  assert (Hf : flags_of (lab_toks lab ++ TMnemonic m :: l) = flags_op o).
  { apply Operand_flags; [exact Ho|]. destruct lab; cbn; intros t0 K; [|tauto]. destruct K as [<-|[]]. eauto. }
  assert (Hm : last_mnemonic NULL_MNEMONIC (lab_toks lab ++ TMnemonic m :: l) = str_to_mnemonic (T m)).
  { destruct lab; cbn [lab_toks app last_mnemonic]; apply last_mnemonic_none, (Operand_no_mnemonic _ _ Ho). }
  destruct lab as [n|]; cbn [lab_toks app] in *.
  - pose proof (Operand_find _ _ Ho 2%nat) as F. eexists. split.
    + cbn [compile]. rewrite (Operand_comp _ _ _ _ Ho). unfold cinstr. rewrite Hf, Hm. reflexivity.
    + cbn [tl find_op operand_tok]. destruct (operand_token o); [|exact F].
      destruct F as (k & -> & Hk). exists (2 + k)%nat. split; [reflexivity|exact Hk].
  - pose proof (Operand_find _ _ Ho 1%nat) as F. eexists. split.
    + cbn [compile]. rewrite (Operand_comp _ _ _ _ Ho). unfold cinstr. rewrite Hf, Hm. reflexivity.
    + cbn [tl]. destruct (operand_token o); [|exact F].
      destruct F as (k & -> & Hk). exists (1 + k)%nat. split; [reflexivity|exact Hk].
Qed.

Definition cstmt_of (s : stmt) (c : cstmt) : Prop :=
  match s with
  | SEmpty => c = CEmpty
  | SLabel n => c = CLabel n
  | SConst n v => c = CConst n 0 v \/ c = CConst n 1 v
  | SOrg v => c = COrg v
  | SEnd => c = CEnd
  | SInstr _ _ _ => True
  end.

Lemma Line_compile_other : forall ts s, Line ts s -> exists c, compile ts = inl c /\ cstmt_of s c.
Proof.
  intros ts s H. destruct H; try (eexists; split; [reflexivity|cbn; tauto]).
  - destruct (Line_compile_instr (TMnemonic m :: l) None m o (Line_instr m l o H)) as (op & -> & _). eexists. split; [reflexivity|exact I].
  - destruct (Line_compile_instr (TLabel n :: TMnemonic m :: l) (Some n) m o (Line_label_instr n m l o H)) as (op & -> & _). eexists. split; [reflexivity|exact I].
Qed.

(** ** Modes *)
(** the flag a mode choice corresponds to; 0 is "illegal addressing mode" *)
Definition flag_of_choice (m : string) (known : bool) (choice : option mode) : Z :=
  match choice with
  | None => 0
  | Some md => match has_mode AsBuilt m md known with Some _ => flag_of md | None => 0 end
  end.

Definition shapes : list (expr -> operand) := [OImm; ODir; ODirX; ODirY; OInd; OIndX; OIndY].

Lemma shape_of : forall o e, operand_expr o = Some e -> exists sh, In sh shapes /\ o = sh e.
Proof.
  intros o e H. destruct o; cbn in H; try discriminate; injection H as ->;
    eexists; (split; [|reflexivity]); cbn; auto 8.
Qed.

Lemma shape_flags : forall sh e e', In sh shapes -> flags_op (sh e) = flags_op (sh e').
Proof. intros sh e e' H. cbn in H. intuition (subst; reflexivity). Qed.

Lemma shape_mode : forall sh e m v, In sh shapes ->
  denoted_mode m (sh e) (Some v) = denoted_mode m (sh (Num 0)) (Some (if 0xFF <? v then 256 else 0)).
Proof.
  intros sh e m v H.
  assert (Hl : v <=? 255 = negb (255 <? v)) by (apply Z.leb_antisym).
  cbn in H. unfold denoted_mode. destruct (is_branch_name m), (is_jump_name m);
    repeat (destruct H as [<-|H]); try tauto; unfold by_size; rewrite ?Hl;
    destruct (255 <? v); reflexivity.
Qed.

Definition known_check (m : Mnemonic) (big : bool) (sh : expr -> operand) : bool :=
  match mnemonic_name m with
  | None => true
  | Some n => flag_known m false big (flags_op (sh (Num 0))) =?
              flag_of_choice n true (denoted_mode n (sh (Num 0)) (Some (if big then 256 else 0)))
  end.

Lemma known_check_all :
  forallb (fun m => forallb (fun b => forallb (known_check m b) shapes) all_bools) all_mnemonics = true.
Proof. vm_compute. reflexivity. Qed.

Lemma flag_known_mode : forall m n o e v, mnemonic_name m = Some n -> operand_expr o = Some e ->
  flag_known m false (0xFF <? v) (flags_op o) = flag_of_choice n true (denoted_mode n o (Some v)).
Proof.
  intros m n o e v Hn He. destruct (shape_of o e He) as (sh & Hs & ->).
  rewrite (shape_flags sh e (Num 0) Hs), (shape_mode sh e n v Hs).
  pose proof known_check_all as K. rewrite forallb_forall in K. specialize (K m (mnemonic_in m n Hn)).
  rewrite forallb_forall in K. specialize (K (0xFF <? v) (all_bools_in _)).
  rewrite forallb_forall in K. specialize (K sh Hs). unfold known_check in K. rewrite Hn in K.
  apply Z.eqb_eq in K. exact K.
Qed.

Lemma mnemonics_forall : forall P : Mnemonic -> bool, forallb P all_mnemonics = true ->
  forall m n, mnemonic_name m = Some n -> P m = true.
Proof. intros P H m n Hn. rewrite forallb_forall in H. apply H, (mnemonic_in m n Hn). Qed.

Lemma flag_none_mode : forall m n, mnemonic_name m = Some n ->
  flag_none m = flag_of_choice n false (denoted_mode n ONone None).
Proof.
  intros m n Hn.
  pose proof (mnemonics_forall (fun m => match mnemonic_name m with None => true | Some n =>
    flag_none m =? flag_of_choice n false (denoted_mode n ONone None) end) ltac:(vm_compute; reflexivity) m n Hn) as K.
  cbn beta in K. rewrite Hn in K. apply Z.eqb_eq in K. exact K.
Qed.

Lemma flag_acc_mode : forall m n, mnemonic_name m = Some n ->
  flag_known m true false (flags_op OAcc) = flag_of_choice n false (denoted_mode n OAcc None).
Proof.
  intros m n Hn.
  pose proof (mnemonics_forall (fun m => match mnemonic_name m with None => true | Some n =>
    flag_known m true false (flags_op OAcc) =? flag_of_choice n false (denoted_mode n OAcc None) end)
    ltac:(vm_compute; reflexivity) m n Hn) as K.
  cbn beta in K. rewrite Hn in K. apply Z.eqb_eq in K. exact K.
Qed.

Lemma branch_name : forall m n, mnemonic_name m = Some n ->
  is_branch m = is_branch_name n /\ is_jump m = is_jump_name n.
Proof. intros [] n H; cbn in H; try discriminate; injection H as <-; split; reflexivity. Qed.

(** for a forward reference *)
Definition forward_check (m : Mnemonic) (sh : expr -> operand) : bool :=
  match mnemonic_name m with
  | None => true
  | Some n =>
    negb (is_branch m || is_jump m) ||
    (flag_forward m (flags_op (sh (Num 0))) =? flag_of_choice n false (denoted_mode n (sh (Num 0)) None))
  end.

Lemma forward_check_all :
  forallb (fun m => forallb (forward_check m) shapes) all_mnemonics = true.
Proof. vm_compute. reflexivity. Qed.

Lemma flag_forward_mode : forall m n o l, mnemonic_name m = Some n -> operand_expr o = Some (Lab l) ->
  is_branch m || is_jump m = true ->
  flag_forward m (flags_op o) = flag_of_choice n false (denoted_mode n o None).
Proof.
  intros m n o l Hn He Hb. destruct (shape_of o _ He) as (sh & Hs & ->).
  rewrite (shape_flags sh _ (Num 0) Hs).
  assert (denoted_mode n (sh (Lab l)) None = denoted_mode n (sh (Num 0)) None) as ->.
  { destruct (branch_name m n Hn) as [B J]. unfold denoted_mode. rewrite <- B, <- J.
    cbn in Hs. destruct (is_branch m), (is_jump m); try discriminate; intuition (subst; reflexivity). }
  pose proof forward_check_all as K. rewrite forallb_forall in K. specialize (K m (mnemonic_in m n Hn)).
  rewrite forallb_forall in K. specialize (K sh Hs). unfold forward_check in K. rewrite Hn, Hb in K.
  cbn [negb orb] in K. apply Z.eqb_eq in K. exact K.
Qed.

(** the bytes *)
Lemma has_mode_cases : forall r n md known op size, has_mode r n md known = Some (op, size) ->
  listed n md = Some (op, size) \/
  (r = AsBuilt /\ n = "JMP"%string /\ known = false /\ (md = ABSX \/ md = ABSY) /\ op = 0xF3 /\ size = 3).
Proof.
  intros r n md known op size H. unfold has_mode in H. destruct (listed n md) as [x|]; [left; exact H|].
  right. destruct r; [discriminate|].
  destruct md; try discriminate; (destruct (String.eqb_spec n "JMP"); [|discriminate]);
    (destruct known; [discriminate|]); injection H as <- <-; auto 10.
Qed.

Lemma choice_listed : forall n known md op size, has_mode AsBuilt n md known = Some (op, size) ->
  flag_of_choice n known (Some md) = flag_of md /\ flag_of md <> 0.
Proof. intros n known md op size H. cbn [flag_of_choice]. rewrite H. split; [reflexivity|]. destruct md; discriminate. Qed.

Definition wide (md : mode) : bool := match md with ABS | ABSX | ABSY | IND => true | _ => false end.
Definition narrow (md : mode) : bool := match md with ACC | IMP => true | _ => false end.

Lemma absolute_flag_mode : forall md, absolute_flag (flag_of md) = wide md.
Proof. intros []; reflexivity. Qed.

Lemma opcode_of_mode : forall m n known md op size, mnemonic_name m = Some n ->
  has_mode AsBuilt n md known = Some (op, size) -> opcode_of m (flag_of md) mod 256 = op mod 256.
Proof.
  intros m n known md op size Hn Hl. unfold opcode_of. rewrite (get_opcode_listed m n md 0 0 Hn).
  destruct (has_mode_cases _ _ _ _ _ _ Hl) as [-> |(_ & -> & _ & M & -> & _)]; [reflexivity|].
  destruct M as [-> | ->]; reflexivity.
Qed.

Lemma listed_bytes : forall n md op size, listed n md = Some (op, size) ->
  size = (if narrow md then 1 else if wide md then 3 else 2) /\ 0 <= op < 256.
Proof.
  intros n md op size H. apply listed_in in H.
  assert (K : forallb (fun '(n, d, op, b) => (b =? (if narrow d then 1 else if wide d then 3 else 2)) &&
     in_range 0 op 255) table = true) by (vm_compute; reflexivity).
  rewrite forallb_forall in K. specialize (K _ H). cbn beta iota in K. apply andb_true_iff in K.
  destruct K as [K1 K2]. apply Z.eqb_eq in K1. apply in_range_spec in K2. split; [exact K1|lia].
Qed.

Lemma has_mode_bytes : forall r n known md op size, has_mode r n md known = Some (op, size) ->
  size = (if narrow md then 1 else if wide md then 3 else 2) /\ 0 <= op < 256.
Proof.
  intros r n known md op size H. destruct (has_mode_cases _ _ _ _ _ _ H) as [L|(_ & _ & _ & M & -> & ->)].
  - eapply listed_bytes; eauto.
  - destruct M as [-> | ->]; split; cbn; lia.
Qed.
