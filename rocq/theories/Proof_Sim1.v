(** Proof_Sim1.v -- the functions of the model used by one turn of the loop, on the
    structs of a lexed line. *)
From Verif Require Import Base Proof_Base Model_Opcode Model_Error Model_Lexer Model_SymbolTable
  Model_Parser Model_ForwardRef Model_Generator Model_Main Spec_Isa Spec_Text Spec_Asm Spec_Link
  Spec_Report Proof_Opcode Proof_Chars Proof_Error Proof_Lex1 Proof_Lex2 Proof_Prime Proof_Table Proof_Refs
  Proof_Core Proof_Parse.

(** ** The Lexer struct of a lexed line, up to the values of its tokens *)
Record LXok (lexer : Lexer) (line file : text) (n : Z) (toks : list (tok * nat)) : Prop := {
  k_line : lx_line lexer = Some line;
  k_file : lx_file lexer = file;
  k_num : lx_line_num lexer = n;
  k_len : List.length (lx_seq lexer) = 8%nat;
  k_tok : forall i p, nth_error toks i = Some p ->
          exists t, nth_error (lx_seq lexer) i = Some t /\ tk_type t = type_of (fst p) /\
                    tk_loc t = Some (snd p) /\
                    (forall l, fst p = TLabel l -> tk_str t = l);
  k_null : forall i, (List.length toks <= i < 8)%nat ->
           exists t, nth_error (lx_seq lexer) i = Some t /\ tk_type t = TOKEN_NULL /\ tk_loc t = None }.

Lemma lexed_ok : forall line file n toks, (List.length toks <= 8)%nat ->
  LXok (lexed line file n toks) line file n toks.
Proof.
  intros line file n toks L. constructor; try reflexivity.
  - apply seq_of_length, L.
  - intros i p H. destruct (seq_of_nth toks i p H) as (tk' & E). exists (tk_next tk' p).
    split; [exact E|]. split; [reflexivity|]. split; [reflexivity|].
    intros l E1. unfold tk_next. rewrite E1. reflexivity.
  - intros i H. exists init_token. split; [apply seq_of_null, H|]. split; reflexivity.
Qed.

(** the value of token [i] *)
Definition val (lexer : Lexer) (i : nat) (v : Z) : Prop :=
  exists t, nth_error (lx_seq lexer) i = Some t /\ tk_value t = v.

Lemma set_value_ok : forall lexer line file n toks i v, LXok lexer line file n toks -> (i < 8)%nat ->
  exists lexer', set_value_at lexer (Z.of_nat i) v = Ret lexer' /\ LXok lexer' line file n toks /\
    val lexer' i v /\ (forall j w, j <> i -> val lexer j w -> val lexer' j w).
Proof.
  intros lexer line file n toks i v [K1 K2 K3 K4 K5 K6] Hi. unfold set_value_at.
  destruct (get_in _ (lx_seq lexer) (Z.of_nat i)) as (t & E & Et); [lia|]. rewrite Nat2Z.id in Et.
  rewrite E. cbn [bind].
  assert (put (lx_seq lexer) (Z.of_nat i) (tk_set_value t v) =
          Ret (upd (lx_seq lexer) i (tk_set_value t v))) as ->.
  { apply put_ret. rewrite Nat2Z.id. split; [lia|reflexivity]. }
  cbn [bind]. eexists. split; [reflexivity|]. unfold lx_set_seq.
  assert (G : forall j t', nth_error (lx_seq lexer) j = Some t' ->
     exists t2, nth_error (upd (lx_seq lexer) i (tk_set_value t v)) j = Some t2 /\
                tk_type t2 = tk_type t' /\ tk_loc t2 = tk_loc t' /\ tk_str t2 = tk_str t').
  { intros j t' Ej. destruct (Nat.eq_dec i j) as [<-|N].
    - rewrite nth_upd_same by lia. eexists. split; [reflexivity|]. rewrite Et in Ej. injection Ej as <-.
      auto.
    - rewrite nth_upd_other by auto. exists t'. auto. }
  split; [|split].
  - constructor; cbn; auto.
    + rewrite upd_length. exact K4.
    + intros j p Hp. destruct (K5 j p Hp) as (t' & A & B & C & D). destruct (G j t' A) as (t2 & A2 & B2 & C2 & D2).
      exists t2. split; [exact A2|]. split; [congruence|]. split; [congruence|].
      intros l El. rewrite D2. apply D, El.
    + intros j Hj. destruct (K6 j Hj) as (t' & A & B & C). destruct (G j t' A) as (t2 & A2 & B2 & C2 & D2).
      exists t2. split; [exact A2|]. split; congruence.
  - eexists. split; [apply nth_upd_same; lia|reflexivity].
  - intros j w N (t' & A & B). exists t'. split; [cbn; rewrite nth_upd_other by auto; exact A|exact B].
Qed.

Lemma get_tok : forall lexer line file n toks i p, LXok lexer line file n toks ->
  nth_error toks i = Some p ->
  exists t, get (lx_seq lexer) (Z.of_nat i) = Ret t /\ tk_type t = type_of (fst p) /\
            tk_loc t = Some (snd p) /\ (forall l, fst p = TLabel l -> tk_str t = l) /\
            (forall v, val lexer i v -> tk_value t = v).
Proof.
  intros lexer line file n toks i p [K1 K2 K3 K4 K5 K6] H. destruct (K5 i p H) as (t & A & B & C & D).
  exists t. split; [apply get_ret; rewrite Nat2Z.id; split; [lia|exact A]|].
  split; [exact B|]. split; [exact C|]. split; [exact D|].
  intros v (t' & A' & B'). congruence.
Qed.

(** ** Positions of tokens *)
Definition solid (line : text) (p : nat) : Prop :=
  exists pre c post, line = pre ++ c :: post /\ p = List.length pre /\ ~ blank c /\ ~ line_end c.

Lemma Lexes_positions : forall lit first off s toks, Lexes lit first off s toks ->
  forall t p, In (t, p) toks -> exists pre c post, s = pre ++ c :: post /\ p = (off + List.length pre)%nat /\
                                ~ blank c /\ ~ line_end c.
Proof.
  intros lit first off s toks H. induction H; intros t0 p Hin.
  - destruct Hin.
  - destruct (IHLexes t0 p Hin) as (pre & x & post & -> & -> & N). exists (c :: pre), x, post.
    split; [reflexivity|]. split; [cbn; lia|exact N].
  - destruct Hin as [E|Hin].
    + injection E as <- <-. destruct (punct_head c t H) as (A & B & _). exists [], c, s. cbn. auto.
    + destruct (IHLexes t0 p Hin) as (pre & x & post & -> & -> & N). exists (c :: pre), x, post.
      split; [reflexivity|]. split; [cbn; lia|exact N].
  - destruct Hin as [E|Hin].
    + injection E as <- <-. destruct (word_head _ w t H) as (A & B & C & _).
      destruct w as [|x w]; [congruence|]. exists [], x, (w ++ s). cbn in *. auto.
    + destruct (IHLexes t0 p Hin) as (pre & x & post & -> & -> & N). exists (w ++ pre), x, post.
      rewrite app_length, <- app_assoc. split; [reflexivity|]. split; [lia|exact N].
  - destruct Hin as [E|Hin].
    + injection E as <- <-. destruct (word_head _ w _ H) as (A & B & C & _).
      destruct w as [|x w]; [congruence|]. exists [], x, (w ++ ":"%char :: s). cbn in *. auto.
    + destruct (IHLexes t0 p Hin) as (pre & x & post & -> & -> & N).
      exists (w ++ ":"%char :: pre), x, post.
      rewrite app_length, <- app_assoc. cbn. split; [reflexivity|]. split; [lia|exact N].
Qed.

Lemma Lexes_solid : forall lit line toks t p, Lexes lit true 0 line toks -> In (t, p) toks -> solid line p.
Proof. intros lit line toks t p H Hin. destruct (Lexes_positions _ _ _ _ _ H t p Hin) as (a & b & c & d). exists a, b, c. exact d. Qed.

Lemma solid_visible : forall line p, solid line p -> visible line /\ (p < List.length line)%nat.
Proof.
  intros line p (pre & c & post & -> & -> & N1 & N2). split.
  - exists c. split; [apply in_or_app; right; left; reflexivity|]. unfold trailing, blank, line_end in *. tauto.
  - rewrite app_length. cbn. lia.
Qed.

(** all positions of [toks] are inside [line], which is not blank if there are tokens *)
Definition placed (line : text) (toks : list (tok * nat)) : Prop :=
  forall t p, In (t, p) toks -> solid line p.

Lemma placed_pos : forall line toks i, placed line toks ->
  match tok_pos toks i with Some p => (p <= List.length line)%nat | None => True end.
Proof.
  intros line toks i H. unfold tok_pos. destruct (nth_error toks i) as [[t p]|] eqn:E; cbn; [|exact I].
  apply nth_error_In in E. apply H in E. apply solid_visible in E. lia.
Qed.

Lemma placed_visible : forall line toks, placed line toks -> toks <> [] -> visible line.
Proof.
  intros line [|[t p] toks] H N; [congruence|]. eapply solid_visible, H. left; reflexivity.
Qed.

(** ** Errors *)
Lemma syntax_error_ok : forall lexer line file n toks code m i, LXok lexer line file n toks ->
  placed line toks -> toks <> [] -> (i < 8)%nat -> message_of code = Some m ->
  exists out, syntax_error lexer code (Z.of_nat i) =
                Ret (code, lx_set_error_tk lexer (Z.of_nat i), out) /\
              Report file n m line (tok_pos toks i) out.
Proof.
  intros lexer line file n toks code m i K P N Hi Hm. pose proof K as [K1 K2 K3 K4 K5 K6].
  assert (exists t, get (lx_seq lexer) (Z.of_nat i) = Ret t /\ tk_loc t = tok_pos toks i) as (t & E & El).
  { unfold tok_pos. destruct (nth_error toks i) as [p|] eqn:E.
    - destruct (get_tok _ _ _ _ _ _ _ K E) as (t & A & B & C & _). exists t. cbn. auto.
    - apply nth_error_None in E. destruct (K6 i) as (t & A & B & C); [lia|]. exists t.
      split; [|cbn; auto]. apply get_ret. rewrite Nat2Z.id. split; [lia|exact A]. }
  unfold syntax_error. rewrite E. cbn [bind]. rewrite K1, K2, K3, El.
  destruct (print_error_report line code (tok_pos toks i) file n m) as (out & Eo & Ro);
    [eapply placed_visible; eauto|apply placed_pos, P|exact Hm|].
  rewrite Eo. cbn [bind]. eauto.
Qed.

Lemma plain_error_ok : forall lexer line file n toks code m, LXok lexer line file n toks ->
  placed line toks -> toks <> [] -> message_of code = Some m ->
  exists out, plain_error lexer code = Ret (code, lexer, out) /\ Report file n m line None out.
Proof.
  intros lexer line file n toks code m [K1 K2 K3 K4 K5 K6] P N Hm. unfold plain_error.
  rewrite K1, K2, K3.
  destruct (print_error_report line code None file n m) as (out & Eo & Ro);
    [eapply placed_visible; eauto|exact I|exact Hm|].
  rewrite Eo. cbn [bind]. eauto.
Qed.

(** ** Operands *)
Lemma type_at_ok : forall lexer line file n toks i, LXok lexer line file n toks -> (i < 8)%nat ->
  type_at lexer (Z.of_nat i) = Ret (ty_nth (map fst toks) i).
Proof.
  intros lexer line file n toks i K Hi. pose proof K as [K1 K2 K3 K4 K5 K6]. unfold type_at, ty_nth.
  rewrite nth_error_map. destruct (nth_error toks i) as [p|] eqn:E.
  - destruct (get_tok _ _ _ _ _ _ _ K E) as (t & A & B & _). rewrite A. cbn [bind option_map]. congruence.
  - apply nth_error_None in E. destruct (K6 i) as (t & A & B & C); [lia|].
    assert (get (lx_seq lexer) (Z.of_nat i) = Ret t) as -> by (apply get_ret; rewrite Nat2Z.id; split; [lia|exact A]).
    cbn. congruence.
Qed.

Lemma operand_type : forall t, is_operand (type_of t) || ty_eqb (type_of t) TOKEN_ACCUMULATOR = operand_tok t.
Proof. intros [| | | | | | | | | | | |[]]; reflexivity. Qed.

Lemma type_not_null : forall t, ty_eqb (type_of t) TOKEN_NULL = false.
Proof. intros [| | | | | | | | | | | |[]]; reflexivity. Qed.

Lemma get_type : forall lexer line file n toks i, LXok lexer line file n toks -> (i < 8)%nat ->
  exists t, get (lx_seq lexer) (Z.of_nat i) = Ret t /\ tk_type t = ty_nth (map fst toks) i.
Proof.
  intros lexer line file n toks i K Hi. pose proof (type_at_ok _ _ _ _ _ i K Hi) as H. unfold type_at in H.
  destruct (get (lx_seq lexer) (Z.of_nat i)) as [t| |]; cbn in H; try discriminate.
  injection H as H. eauto.
Qed.

Lemma nth_skipn : forall A (l : list A) i, nth_error l i = hd_error (skipn i l).
Proof. induction l; destruct i; cbn; auto. Qed.

Lemma find_loop_ok : forall lexer line file n toks, LXok lexer line file n toks ->
  forall k i fuel curr, (k + i = 9)%nat -> (k < fuel)%nat -> ty_eqb curr TOKEN_NULL = false ->
  (i <= List.length toks)%nat ->
  match find_op i (skipn i (map fst toks)) with
  | Some (j, t) => (j < 8)%nat /\ find_operand_loop fuel (lx_seq lexer) curr (Z.of_nat i) = Ret (Some (Z.of_nat j))
  | None => (List.length toks < 8)%nat ->
            find_operand_loop fuel (lx_seq lexer) curr (Z.of_nat i) = Ret None
  end.
Proof.
  intros lexer line file n toks K.
  assert (LEN : (List.length toks <= 8)%nat).
  { destruct K as [K1 K2 K3 K4 K5 K6]. destruct (le_lt_dec (List.length toks) 8) as [|L]; auto.
    assert (exists p, nth_error toks 8 = Some p) as (p & E).
    { destruct (nth_error toks 8) eqn:E; eauto. apply nth_error_None in E. lia. }
    destruct (K5 8%nat p E) as (t & A & _).
    assert (nth_error (lx_seq lexer) 8 <> None) by congruence. apply nth_error_Some in H. lia. }
  induction k as [|k IH]; intros i fuel curr Hk Hf Hc Hi; [lia|].
  destruct fuel as [|fuel]; [lia|]. cbn [find_operand_loop]. rewrite Hc.
  pose proof (nth_skipn _ (map fst toks) i) as HS.
  destruct (skipn i (map fst toks)) as [|t r] eqn:SK.
  - cbn [find_op hd_error] in *. intro L8. destruct (get_type _ _ _ _ _ i K) as (t & Et & Ty); [lia|].
    rewrite Et. cbn [bind]. unfold ty_nth in Ty. rewrite HS in Ty. rewrite Ty. cbn.
    destruct fuel; [lia|]. reflexivity.
  - cbn [hd_error] in HS.
    assert (i < List.length toks)%nat as Li.
    { rewrite <- (map_length fst). apply nth_error_Some. congruence. }
    destruct (get_type _ _ _ _ _ i K) as (tk & Et & Ty); [lia|].
    unfold ty_nth in Ty. rewrite HS in Ty. cbn [find_op].
    assert (skipn (S i) (map fst toks) = r) as Sr.
    { clear - SK. revert i SK. induction (map fst toks) as [|x l IHl]; intros [|i] SK; cbn in *; try discriminate.
      - injection SK as _ <-. reflexivity.
      - apply IHl, SK. }
    rewrite Et. cbn [bind]. rewrite Ty, operand_type.
    destruct (operand_tok t) eqn:O.
    + split; [lia|reflexivity].
    + specialize (IH (S i) fuel (type_of t)). rewrite Sr in IH.
      replace (Z.of_nat i + 1) with (Z.of_nat (S i)) by lia.
      apply IH; try lia. apply type_not_null.
Qed.

Lemma find_operand_ok : forall lexer line file n toks, LXok lexer line file n toks -> toks <> [] ->
  (find_op 1 (tl (map fst toks)) = None -> (List.length toks < 8)%nat) ->
  find_operand lexer = Ret (option_map (fun p => Z.of_nat (fst p)) (find_op 1 (tl (map fst toks)))).
Proof.
  intros lexer line file n toks K N H. unfold find_operand.
  pose proof (type_at_ok _ _ _ _ _ 1 K ltac:(lia)) as T1. cbn [Z.of_nat Pos.of_succ_nat] in T1. rewrite T1.
  cbn [bind]. destruct toks as [|p toks]; [congruence|]. cbn [map tl] in *.
  destruct toks as [|q toks].
  - reflexivity.
  - cbn [map ty_nth nth_error]. unfold ty_nth. cbn [nth_error map].
    pose proof (find_loop_ok _ _ _ _ _ K 8%nat 1%nat 16%nat (type_of (fst q))) as F.
    cbn [map skipn List.length] in F. specialize (F ltac:(lia) ltac:(lia) (type_not_null _) ltac:(lia)).
    change (Z.of_nat 1) with 1 in F.
    cbn [map] in H. destruct (find_op 1 (fst q :: map fst toks)) as [[j t]|].
    + destruct F as [_ F]. exact F.
    + apply F. apply H. reflexivity.
Qed.

Lemma find_op_nth : forall ts i j t, find_op i ts = Some (j, t) ->
  (i <= j)%nat /\ nth_error ts (j - i) = Some t /\ operand_tok t = true /\
  (forall k u, (k < j - i)%nat -> nth_error ts k = Some u -> operand_tok u = false).
Proof.
  induction ts as [|x ts IH]; cbn [find_op]; intros i j t H; [discriminate|].
  destruct (operand_tok x) eqn:O.
  - injection H as <- <-. rewrite Nat.sub_diag. cbn. repeat split; auto. lia.
  - destruct (IH _ _ _ H) as (A & B & C & D). split; [lia|].
    replace (j - i)%nat with (S (j - S i)) by lia. cbn [nth_error]. split; [exact B|]. split; [exact C|].
    intros [|k] u Hk Hu; cbn in Hu; [injection Hu as <-; exact O|]. apply (D k u); [lia|exact Hu].
Qed.

(** ** Masks *)
Lemma has_type_ok : forall lexer line file n toks ty, LXok lexer line file n toks -> ty <> TOKEN_NULL ->
  has_type ty (lx_seq lexer) = existsb (is_ty ty) (map fst toks).
Proof.
  intros lexer line file n toks ty K N. unfold has_type. apply eq_true_iff_eq. rewrite !existsb_exists.
  assert (E : forall a b, ty_eqb a b = true <-> a = b).
  { intros a b. unfold ty_eqb. destruct (TokenType_eq_dec a b); split; congruence. }
  pose proof K as [K1 K2 K3 K4 K5 K6]. split.
  - intros (t & Hin & Ht). apply E in Ht. apply In_nth_error in Hin. destruct Hin as (i & Hi).
    assert (i < 8)%nat as Li by (rewrite <- K4; apply nth_error_Some; congruence).
    destruct (nth_error toks i) as [p|] eqn:Ep.
    + destruct (K5 i p Ep) as (t' & A & B & _). exists (fst p). split; [apply in_map; eapply nth_error_In; eauto|].
      apply E. congruence.
    + apply nth_error_None in Ep. destruct (K6 i) as (t' & A & B & _); [lia|]. congruence.
  - intros (t & Hin & Ht). apply in_map_iff in Hin. destruct Hin as (p & <- & Hin).
    apply In_nth_error in Hin. destruct Hin as (i & Hi). destruct (K5 i p Hi) as (t' & A & B & _).
    exists t'. split; [eapply nth_error_In; eauto|]. rewrite B. exact Ht.
Qed.

Lemma apply_masks_ok : forall lexer line file n toks f, LXok lexer line file n toks ->
  apply_masks lexer f = Ret (masks (flags_of (map fst toks)) f).
Proof.
  intros lexer line file n toks f K. unfold apply_masks. rewrite (k_len _ _ _ _ _ K).
  change (Z.of_nat 8 <? MAX_TOKENS) with false. cbv iota.
  rewrite firstn_all2 by (rewrite (k_len _ _ _ _ _ K); cbn; lia).
  rewrite !(has_type_ok _ _ _ _ _ _ K) by discriminate. reflexivity.
Qed.

(** ** Code generation *)
Lemma opcode_of_ok : forall m bf fl o, get_opcode (set_opcode (mkInstr m bf fl o) 0) = opcode_of m fl.
Proof. intros. apply get_opcode_fields. Qed.

Lemma generate_none : forall f instr pc, exists i',
  generate_code f instr None pc =
  (1, write_at f pc (code_bytes (i_mnemonic instr) (i_bitflag instr) None), i').
Proof.
  intros f [m bf fl o] pc. unfold generate_code, code_bytes, write_at. cbn [i_mnemonic i_bitflag fold_left].
  unfold opcode_of. rewrite (get_opcode_fields m 0 bf fl 0 o). eexists. reflexivity.
Qed.

Lemma generate_acc : forall f instr t pc, tk_type t = TOKEN_ACCUMULATOR -> exists i',
  generate_code f instr (Some t) pc =
  (1, write_at f pc (code_bytes (i_mnemonic instr) (i_bitflag instr) None), i').
Proof.
  intros f [m bf fl o] t pc H. unfold generate_code, code_bytes, write_at. rewrite H. cbn [i_mnemonic i_bitflag fold_left].
  unfold opcode_of. rewrite (get_opcode_fields m 0 bf fl 0 o). eexists. reflexivity.
Qed.

Lemma generate_some : forall f instr t pc, ty_eqb (tk_type t) TOKEN_ACCUMULATOR = false -> exists i',
  generate_code f instr (Some t) pc =
  (zlen (code_bytes (i_mnemonic instr) (i_bitflag instr) (Some (tk_value t))),
   write_at f pc (code_bytes (i_mnemonic instr) (i_bitflag instr) (Some (tk_value t))), i').
Proof.
  intros f [m bf fl o] t pc H. unfold generate_code, code_bytes, write_at, zlen, absolute_flag. rewrite H.
  cbn [i_mnemonic i_bitflag fold_left set_opcode i_opcode].
  unfold opcode_of. rewrite (get_opcode_fields m 0 bf fl 0 o).
  destruct (negb (Z.land fl ABSOLUTE_FIELD =? 0)); eexists; reflexivity.
Qed.

Definition sane (z : Z) : Prop := 0 <= z <= 1000000000.

Lemma branch_offset_ok : forall pc v,
  calc_branch_offset pc v =
  match branch_offset pc v with Some d => Ret d | None => Ret ERROR_TOO_BIG_OFFSET end \/
  (exists u, calc_branch_offset pc v = Undef u) /\ ~ (sane pc /\ sane v).
Proof.
  intros pc v. unfold calc_branch_offset, branch_offset, int_of.
  destruct (in_range INT_MIN (v - pc) INT_MAX) eqn:E1; cbn [bind].
  2:{ right. split; [eauto|]. apply in_range_false in E1. unfold sane, INT_MIN, INT_MAX in *. lia. }
  destruct (in_range INT_MIN (v - pc - 2) INT_MAX) eqn:E2; cbn [bind].
  2:{ right. split; [eauto|]. apply in_range_false in E2. unfold sane, INT_MIN, INT_MAX in *. lia. }
  left. destruct (Z.leb_spec v pc), (Z.ltb_spec (v - pc - 2) (-128)), (Z.ltb_spec 127 (v - pc - 2));
    cbn [orb]; try reflexivity; lia.
Qed.

Lemma branch_offset_range : forall pc v d, branch_offset pc v = Some d -> 0 <= d < 256.
Proof.
  intros pc v d H. unfold branch_offset in H. destruct (_ || _); [discriminate|].
  assert (d = Z.land 255 (v - pc - 2)) as -> by congruence. rewrite Z.land_comm. change 255 with (Z.ones 8). rewrite Z.land_ones by lia. apply Z.mod_pos_bound. lia.
Qed.

(** ** Kept source lines *)
Lemma strip_source_ok : forall line p, solid line p ->
  exists s trail, strip_source_line line = Ret s /\ line = s ++ trail /\ solid s p /\
                  Forall trailing trail.
Proof.
  intros line p (pre & c & post & -> & -> & Nb & Ne). unfold strip_source_line.
  set (line := pre ++ c :: post).
  assert (exists r0 tr0, (match rev line with [] => [] | x :: r' => if Ascii.eqb x ch_nl then r' else rev line end) = r0
      /\ rev line = tr0 ++ r0 /\ Forall trailing tr0 /\ In c r0) as (r0 & tr0 & E0 & D0 & F0 & I0).
  { unfold line. rewrite rev_app_distr. cbn [rev]. rewrite <- app_assoc.
    destruct (rev post) as [|x r] eqn:R; cbn [app].
    - destruct (Ascii.eqb_spec c ch_nl) as [->|N].
      + exfalso. apply Ne. unfold line_end. tauto.
      + eexists _, []. split; [reflexivity|]. split; [reflexivity|]. split; [constructor|]. left; reflexivity.
    - destruct (Ascii.eqb_spec x ch_nl) as [->|N].
      + eexists _, [ch_nl]. split; [reflexivity|]. split; [reflexivity|].
        split; [repeat constructor; unfold trailing; tauto|]. apply in_or_app. right. left. reflexivity.
      + eexists _, []. split; [reflexivity|]. split; [reflexivity|]. split; [constructor|].
        right. apply in_or_app. right. left. reflexivity. }
  destruct (drop_while_split is_blank r0) as (tr1 & E1 & F1).
  assert (F1' : Forall blank tr1).
  { eapply Forall_impl; [|exact F1]. intros a Ha. apply is_blank_spec. exact Ha. }
  assert (Ic : In c (drop_while is_blank r0)).
  { rewrite E1 in I0. apply in_app_or in I0. destruct I0 as [I0|I0]; [|exact I0].
    exfalso. rewrite Forall_forall in F1'. apply F1' in I0. tauto. }
  assert (EQ : strip_source_line line =
     match drop_while is_blank r0 with [] => Undef UbUnderrun | r2 => Ret (rev r2) end).
  { unfold strip_source_line. rewrite <- E0. destruct (rev line); reflexivity. }
  unfold strip_source_line in EQ. rewrite EQ.
  destruct (drop_while is_blank r0) as [|y r2] eqn:D; [destruct Ic|].
  assert (L : line = rev (y :: r2) ++ rev tr1 ++ rev tr0).
  { rewrite <- (rev_involutive line), D0, E1, !rev_app_distr. rewrite <- app_assoc. reflexivity. }
  exists (rev (y :: r2)), (rev tr1 ++ rev tr0). split; [reflexivity|]. split; [exact L|].
  assert (FT : Forall trailing (rev tr1 ++ rev tr0)).
  { apply Forall_app. split; apply Forall_rev; [|exact F0]. eapply Forall_impl; [|exact F1'].
    intros a [->| ->]; unfold trailing; tauto. }
  split; [|exact FT].
  set (s := rev (y :: r2)) in *. set (tr := rev tr1 ++ rev tr0) in *. clearbody s tr.
  assert (List.length pre < List.length s)%nat as LL.
  { destruct (le_lt_dec (List.length s) (List.length pre)) as [Q|Q]; [|exact Q]. exfalso.
    assert (nth_error line (List.length pre) = Some c) as Nth by (unfold line; apply nth_app_mid).
    rewrite L, nth_error_app2 in Nth by exact Q. apply nth_error_In in Nth.
    rewrite Forall_forall in FT. apply FT in Nth. unfold trailing, blank, line_end in *. tauto. }
  exists pre, c, (skipn (S (List.length pre)) s).
  split; [|auto].
  assert (nth_error s (List.length pre) = Some c) as Nth.
  { assert (nth_error line (List.length pre) = Some c) as Nth by (unfold line; apply nth_app_mid).
    rewrite L, nth_error_app1 in Nth by exact LL. exact Nth. }
  assert (firstn (List.length pre) s = pre) as Fp.
  { assert (firstn (List.length pre) line = pre) as Fl
      by (unfold line; rewrite firstn_app, Nat.sub_diag, firstn_all; cbn; apply app_nil_r).
    rewrite L, firstn_app in Fl. replace (List.length pre - List.length s)%nat with 0%nat in Fl by lia.
    cbn in Fl. rewrite app_nil_r in Fl. exact Fl. }
  rewrite <- (firstn_skipn (List.length pre) s) at 1. rewrite Fp. f_equal.
  pose proof (nth_skipn _ s (List.length pre)) as HS. rewrite Nth in HS.
  destruct (skipn (List.length pre) s) as [|z r] eqn:SK; [discriminate|]. cbn in HS. injection HS as <-.
  f_equal. clear - SK. revert SK. generalize (List.length pre) as k. intros k. revert s.
  induction k as [|k IH]; intros s SK; destruct s as [|x s]; cbn in *; try discriminate.
  - injection SK as _ <-. reflexivity.
  - apply IH, SK.
Qed.

Lemma stripped_report : forall line p file n m out, solid line p ->
  Report file n m (stripped line) (Some p) out -> Report file n m line (Some p) out.
Proof.
  intros line p file n m out H (shown & (tr & E & F & front & c & E2 & N) & ->).
  destruct (strip_source_ok line p H) as (s & trail & Es & El & Sol & Ft).
  unfold stripped in E. unfold stripped. rewrite Es in *. exists shown. split.
  - exists (tr ++ trail). split; [rewrite El, E at 1; rewrite app_assoc; reflexivity|].
    split; [apply Forall_app; auto|eauto].
  - apply solid_visible in Sol. rewrite El, firstn_app. replace (p - List.length s)%nat with 0%nat by lia.
    cbn [firstn]. rewrite app_nil_r. reflexivity.
Qed.
