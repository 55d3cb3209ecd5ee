(** Prop_Total.v -- C74: the result of every source text. *)
From Verif Require Import Base Proof_Base Model_Opcode Model_Error Model_Lexer Model_SymbolTable Model_Parser Model_Generator Model_ForwardRef Model_Main
  Spec_Isa Spec_Text Spec_Asm Spec_Diag Spec_Link Spec_Grammar Spec_Prog Spec_Report Spec_Left Spec_Total
  Proof_Opcode Proof_Error Proof_Modes Proof_Lex1 Proof_Lex2 Proof_Core Proof_Parse Proof_Sim1 Prop_Table Proof_Sim2 Proof_Run Proof_Source Proof_Diag Proof_Whole Proof_Ref Proof_Image Proof_Grammar Proof_At Proof_Prog Proof_Check
  Proof_Crash Proof_Fun Prop_Edit Prop_State Prop_Lines Prop_Left.

(** ** Pieces *)
Lemma fgets_long : forall l n rest, ~ In ch_nl l -> List.length l = n -> fgets n (l ++ rest) = (l, rest).
Proof.
  induction l as [|c l IH]; intros n rest H L; destruct n as [|n]; cbn [List.length] in L; try lia; [reflexivity|].
  cbn [app]. rewrite fgets_cons by (intro K; apply H; left; auto). rewrite IH; [reflexivity| |lia]. intro K. apply H. right. exact K.
Qed.

Lemma cut_chunks : forall src cs, cut src cs -> cs = chunks src.
Proof.
  intros src cs H. induction H as [|l rest ls N L H IH|l rest ls N L H IH|l N L].
  - reflexivity.
  - rewrite (chunks_cons _ (l ++ [ch_nl]) rest); [rewrite <- IH; reflexivity|destruct l; discriminate|]. apply fgets_line; [exact N|lia].
  - rewrite (chunks_cons _ l rest); [rewrite <- IH; reflexivity|destruct l; [discriminate L|discriminate]|]. apply fgets_long; assumption.
  - rewrite (chunks_cons l l []); [reflexivity|destruct l; [cbn in L; lia|discriminate]|]. apply fgets_last; [exact N|lia].
Qed.

Lemma nl_split : forall s, ~ In ch_nl s \/ exists l rest, ~ In ch_nl l /\ s = l ++ ch_nl :: rest.
Proof.
  induction s as [|c s [IH|(l & rest & N & ->)]]; [left; intros []| |].
  - destruct (Ascii.ascii_dec c ch_nl) as [->|E]; [right; exists [], s; split; [intros []|reflexivity]|].
    left. intros [K|K]; auto.
  - destruct (Ascii.ascii_dec c ch_nl) as [->|E]; [right; exists [], (l ++ ch_nl :: rest); split; [intros []|reflexivity]|].
    right. exists (c :: l), rest. split; [intros [K|K]; auto|reflexivity].
Qed.

Lemma cut_total : forall n src, (List.length src <= n)%nat -> exists cs, cut src cs.
Proof.
  induction n as [|n IH]; intros src L; [destruct src; [exists []; constructor|cbn in L; lia]|].
  destruct src as [|c0 src0]; [exists []; constructor|]. set (src := c0 :: src0) in *.
  assert (LG : forall l rest, src = l ++ rest -> ~ In ch_nl l -> List.length l = 127%nat -> exists cs, cut src cs).
  { intros l rest E N Ll. destruct (IH rest) as (cs & H); [apply (f_equal (@List.length _)) in E; rewrite app_length in E; lia|].
    exists (l :: cs). rewrite E. constructor; assumption. }
  destruct (nl_split src) as [N|(l & rest & N & E)].
  - destruct (le_lt_dec (List.length src) 126) as [K|K]; [exists [src]; constructor; [exact N|cbn in *; lia]|].
    apply (LG (firstn 127 src) (skipn 127 src)); [symmetry; apply firstn_skipn| |apply firstn_length_le; lia].
    intro I. apply N. rewrite <- (firstn_skipn 127 src). apply in_or_app. auto.
  - destruct (le_lt_dec (List.length l) 126) as [K|K].
    + destruct (IH rest) as (cs & H); [rewrite E in L; rewrite app_length in L; cbn in L; lia|].
      exists ((l ++ [ch_nl]) :: cs). rewrite E. constructor; assumption.
    + apply (LG (firstn 127 l) (skipn 127 l ++ ch_nl :: rest)).
      * rewrite app_assoc, firstn_skipn. exact E.
      * intro I. apply N. rewrite <- (firstn_skipn 127 l). apply in_or_app. auto.
      * apply firstn_length_le. lia.
Qed.

Lemma pieces_lines : forall src l, pieces src l -> l = lines_of src.
Proof.
  intros src l (cs & H & ->). rewrite (cut_chunks _ _ H). unfold lines_of. apply map_ext. intro. symmetry. apply cstring_before_nul.
Qed.

(** ** Places *)
Lemma behind_app : forall toks lab m l, map fst toks = lab_toks lab ++ TMnemonic m :: l ->
  exists front p back, toks = front ++ (TMnemonic m, p) :: back /\ List.length front = List.length (lab_toks lab) /\
    map fst back = l /\ behind_mnemonic toks = back.
Proof.
  intros toks lab m l H. destruct lab as [n|]; cbn [lab_toks app] in H.
  - apply map_cons_inv in H. destruct H as ([t p] & xs & -> & Ht & H). cbn in Ht. subst t.
    apply map_cons_inv in H. destruct H as ([t q] & ys & -> & Ht & H). cbn in Ht. subst t.
    exists [(TLabel n, p)], q, ys. auto.
  - apply map_cons_inv in H. destruct H as ([t p] & xs & -> & Ht & H). cbn in Ht. subst t. exists [], p, xs. auto.
Qed.

(** the operand label stands at index [k] behind the mnemonic, no label in front of it *)
Lemma place_behind : forall toks lab m l k n, map fst toks = lab_toks lab ++ TMnemonic m :: l -> nth_error l k = Some (TLabel n) ->
  (forall j t, (j < k)%nat -> nth_error l j = Some t -> match t with TLabel _ => False | _ => True end) ->
  tok_pos toks (List.length (lab_toks lab) + 1 + k) = place_in toks AtOperand /\ exists p, place_in toks AtOperand = Some p.
Proof.
  intros toks lab m l k n H Hk Hn. destruct (behind_app _ _ _ _ H) as (front & p & back & -> & Lf & Hb & Eb).
  unfold place_in. rewrite Eb. unfold tok_pos. rewrite nth_error_app2 by lia. rewrite Lf.
  replace (List.length (lab_toks lab) + 1 + k - List.length (lab_toks lab))%nat with (S k) by lia. cbn [nth_error].
  clear - Hk Hn Hb. subst l. revert k Hk Hn. induction back as [|[t q] back IH]; intros k Hk Hn; [destruct k; discriminate|].
  destruct k as [|k]; cbn [nth_error map fst] in *.
  - injection Hk as ->. cbn [filter is_label fst hd_error option_map snd]. eauto.
  - pose proof (Hn 0%nat t (Nat.lt_0_succ k) eq_refl) as Ht. cbn [filter is_label fst].
    destruct t; try contradiction; (apply IH; [exact Hk|]; intros j u Hj Hu; apply (Hn (S j) u); [lia|exact Hu]).
Qed.

Lemma operand_at : forall l o n, Operand l o -> operand_token o = Some (TLabel n) ->
  exists k, nth_error l k = Some (TLabel n) /\ (forall i, find_op i l = Some ((i + k)%nat, TLabel n)) /\
    forall j t, (j < k)%nat -> nth_error l j = Some t -> match t with TLabel _ => False | _ => True end.
Proof.
  intros l o n H E. destruct H as [| |t e He|t e He|t e He|t e He|t e He|t e He|t e He]; try discriminate; destruct He; try discriminate;
    cbn in E; injection E as ->; (first
      [exists 0%nat; split; [reflexivity|]; split; [intro i; cbn; rewrite Nat.add_0_r; reflexivity|]; intros j t Hj; lia
      |exists 1%nat; split; [reflexivity|]; split; [intro i; cbn; rewrite Nat.add_1_r; reflexivity|]; intros j t Hj; destruct j; [|lia]; cbn; intro K; injection K as <-; exact I]).
Qed.

(** ** Lines of the grammar *)
Section At.
Variable located : Z -> nat -> Prop.

Lemma first_in : forall (toks : list (tok * nat)) n ts, map fst toks = TLabel n :: ts -> tok_pos toks 0 = place_in toks AtLabel.
Proof. intros toks n ts H. apply map_cons_inv in H. destruct H as ([t p] & xs & -> & Ht & _). cbn in Ht. subst t. reflexivity. Qed.

Lemma second_in : forall (toks : list (tok * nat)) n ts, map fst toks = TDirective DDefine :: TLabel n :: ts ->
  tok_pos toks 1 = place_in toks AtLabel.
Proof.
  intros toks n ts H. apply map_cons_inv in H. destruct H as ([t p] & xs & -> & Ht & H). cbn in Ht. subst t.
  apply map_cons_inv in H. destruct H as ([t p2] & ys & -> & Ht & H). cbn in Ht. subst t. reflexivity.
Qed.

Lemma line_at : forall b toks n st c s, DAt located n st c -> named (map fst toks) ->
  (forall p, place_in toks AtOperand = Some p -> located n p) -> Line (map fst toks) s ->
  match s with
  | SEnd => line_step b toks c = CFinish c
  | _ =>
    match diag_stmt AsBuilt n st s with
    | inl st' => exists c', line_step b toks c = CNext c' /\ DAt located (n + 1) st' c'
    | inr (msg, w) => line_step b toks c = CErr msg (place_in toks w)
    end
  end.
Proof.
  intros b toks n st c s HR Nm Loc HL. pose proof HR as [E P L Tt R F].
  destruct s as [|l|l v|v| |lab m o].
  - destruct (Line_compile_other _ _ HL) as (cs & C & ->). unfold line_step. rewrite C. cbn [Spec_Diag.diag_stmt].
    eexists. split; [reflexivity|]. apply next_line_at, HR.
  - destruct (Line_compile_other _ _ HL) as (cs & C & ->). unfold line_step. rewrite C, E. cbn [Spec_Diag.diag_stmt].
    destruct (lookup (d_env st) l).
    + f_equal. inversion HL; subst. eapply first_in; eauto.
    + eexists. split; [reflexivity|]. rewrite P. apply next_line_at, define_at, HR.
  - destruct (Line_compile_other _ _ HL) as (cs & C & Hc). unfold line_step. rewrite C. cbn [Spec_Diag.diag_stmt].
    assert (exists i, cs = CConst l i v /\ tok_pos toks i = place_in toks AtLabel) as (i & -> & Hi).
    { inversion HL as [| | | |? ? Hx|? ? Hx|? ? Hx| | |]; subst; rewrite <- Hx in C; cbn in C; injection C as <-;
        eexists; (split; [reflexivity|]); symmetry in Hx.
      - eapply first_in; eauto.
      - eapply first_in; eauto.
      - eapply second_in; eauto. }
    rewrite E. destruct (lookup (d_env st) l).
    + f_equal. exact Hi.
    + eexists. split; [reflexivity|]. apply next_line_at, define_at, HR.
  - destruct (Line_compile_other _ _ HL) as (cs & C & ->). unfold line_step. rewrite C. cbn [Spec_Diag.diag_stmt].
    eexists. split; [reflexivity|]. constructor; cbn; auto. lia.
  - destruct (Line_compile_other _ _ HL) as (cs & C & ->). unfold line_step. rewrite C. reflexivity.
  - destruct (Line_compile_instr _ _ _ _ HL) as (op & C & HOp).
    destruct (Line_instr_inv _ _ _ _ HL) as (l & Hts & Ho).
    assert (is_name m) as Nx by (apply Nm; rewrite Hts; apply in_or_app; right; left; reflexivity).
    apply is_name_mnemonic in Nx. destruct Nx as (M & HM).
    assert (HOp2 : match operand_token o with
      | None => op = None
      | Some t => exists i, op = Some (i, t) /\
          (forall l, t = TLabel l -> tok_pos toks i = place_in toks AtOperand /\ exists p, place_in toks AtOperand = Some p /\ located n p)
      end).
    { destruct (operand_token o) as [t|] eqn:Et; [|exact HOp]. destruct HOp as (i & -> & Hi).
      exists i. split; [reflexivity|]. intros l0 ->.
      destruct (compile_instr _ _ _ _ _ C) as (_ & Hf & _).
      destruct (operand_at _ _ _ Ho Et) as (k & Nk & Fk & Bk).
      assert (i = (List.length (lab_toks lab) + 1 + k)%nat) as ->.
      { rewrite Hts in Hf. destruct lab; cbn [lab_toks app tl find_op operand_tok List.length] in Hf |- *; rewrite Fk in Hf; injection Hf; lia. }
      destruct (place_behind toks lab m l k l0 Hts Nk Bk) as [A (p & B)]. split; [exact A|]. exists p. auto. }
    unfold line_step. rewrite C. rewrite (str_to_mnemonic_name M m HM).
    destruct lab as [l1|]; cbn [Spec_Diag.diag_stmt].
    + rewrite E. destruct (lookup (d_env st) l1).
      * f_equal. cbn in Hts. eapply first_in; eauto.
      * rewrite P. apply instr_at; auto. apply define_at, HR.
    + apply instr_at; auto.
Qed.

(** ** Lines with more tokens behind an indexed operand *)
Definition more_toks (lab : option text) (m : string) (t r : tok) (more : list tok) : list tok :=
  lab_toks lab ++ [TMnemonic m; t; TComma; r] ++ more.

Lemma last_more : forall more m, last_mnemonic (str_to_mnemonic (T m)) more = str_to_mnemonic (T (last_name m more)).
Proof. induction more as [|t more IH]; intro m; [reflexivity|]. destruct t; cbn [last_mnemonic last_name]; apply IH. Qed.

Lemma compile_more : forall lab m t e r more, Expr t e -> r = TX \/ r = TY ->
  compile (more_toks lab m t r more) = inl (CInstr lab (str_to_mnemonic (T (last_name m more)))
    (Some ((List.length (lab_toks lab) + 1)%nat, t)) (flags_of (more_toks lab m t r more))).
Proof.
  intros lab m t e r more X R. unfold more_toks.
  destruct lab as [n|], X, R as [-> | ->]; cbn [lab_toks app compile comp_operand expr_tok]; unfold cinstr;
    cbn [last_mnemonic tl find_op operand_tok List.length]; rewrite last_more; reflexivity.
Qed.

Lemma existsb_other : forall (p q : tok -> bool) l, (forall t, p t = q t) -> existsb p l = existsb q l.
Proof. intros p q l H. induction l as [|x l IH]; [reflexivity|]. cbn. rewrite H, IH. reflexivity. Qed.

Lemma flags_more : forall lab m t e r more, Expr t e -> r = TX \/ r = TY ->
  flags_of (more_toks lab m t r more) =
  mkFlags (has_tok is_x (r :: more)) (existsb (is_ty TOKEN_Y_REGISTER) (r :: more)) (has_tok is_open_bracket more)
          (existsb (is_ty TOKEN_IMMEDIATE) more) (existsb (is_ty TOKEN_ACCUMULATOR) more).
Proof.
  intros lab m t e r more X R. unfold flags_of, more_toks, has_tok.
  rewrite (existsb_other is_x (is_ty TOKEN_X_REGISTER)) by (intros [| | | | | | | | | | | |[]]; reflexivity).
  rewrite (existsb_other is_open_bracket (is_ty TOKEN_OPEN_PARENTHESIS)) by (intros [| | | | | | | | | | | |[]]; reflexivity).
  destruct lab as [n|], X, R as [-> | ->]; reflexivity.
Qed.

Lemma hash_or_a : forall more, has_tok is_hash_or_a more = existsb (is_ty TOKEN_IMMEDIATE) more || existsb (is_ty TOKEN_ACCUMULATOR) more.
Proof.
  induction more as [|t more IH]; [reflexivity|]. unfold has_tok in *. cbn [existsb]. rewrite IH.
  destruct t as [| | | | | | | | | | | |[]]; cbn [is_hash_or_a is_ty type_of]; cbn; rewrite ?orb_true_r; reflexivity.
Qed.

(** the masks *)
Lemma masks_none : forall x y op im ac z, x || y = true -> im || ac = true -> masks (mkFlags x y op im ac) z = 0.
Proof.
  intros x y op im ac z H K. unfold masks. cbn [f_x f_y f_open f_imm f_acc].
  destruct x; [|destruct y; [|discriminate]]; destruct op; destruct im; try (destruct ac; [|discriminate]);
    try destruct ac; rewrite <- !Z.land_assoc; apply Z.land_0_r.
Qed.

Lemma masks_x : forall y op z, masks (mkFlags true y op false false) z = masks (mkFlags true false op false false) z.
Proof. reflexivity. Qed.

Lemma instr_masks : forall line toks m op fl fl' c, (forall z, masks fl z = masks fl' z) ->
  instr_step line toks m op fl c = instr_step line toks m op fl' c.
Proof.
  intros line toks m op fl fl' c H. assert (K : forall a b, flag_known m a b fl = flag_known m a b fl') by (intros; unfold flag_known; rewrite H; reflexivity).
  assert (F : flag_forward m fl = flag_forward m fl') by (unfold flag_forward; rewrite H; reflexivity).
  unfold instr_step. rewrite F. destruct op as [[i t]|]; [|reflexivity]. destruct t; try (rewrite !K; reflexivity).
  destruct (lookup (c_env c) name); [rewrite K|]; reflexivity.
Qed.

Lemma instr_no_mode : forall line toks m i t e fl c, Expr t e -> (forall z, masks fl z = 0) ->
  instr_step line toks m (Some (i, t)) fl c =
  if (match e with Lab n => match lookup (c_env c) n with None => true | Some _ => false end | Num _ => false end) && negb (is_branch m || is_jump m)
  then CErr "illegal forward reference" (tok_pos toks i) else CErr "illegal addressing mode" None.
Proof.
  intros line toks m i t e fl c X H. assert (K : forall a b, flag_known m a b fl = 0) by (intros; unfold flag_known; rewrite H; apply Z.land_0_l).
  assert (F : is_branch m || is_jump m = true -> flag_forward m fl = 0).
  { intros _. unfold flag_forward. rewrite H. destruct (is_branch m); [reflexivity|]. destruct m; reflexivity. }
  destruct X; cbn [instr_step]; [rewrite K; reflexivity|].
  destruct (lookup (c_env c) n); [rewrite K; reflexivity|]. destruct (is_branch m || is_jump m); cbn [andb negb]; [rewrite F by reflexivity|]; reflexivity.
Qed.

Lemma last_name_in : forall more m, In (TMnemonic (last_name m more)) (TMnemonic m :: more).
Proof.
  induction more as [|x more IH]; intro m; [left; reflexivity|].
  destruct x; cbn [last_name]; try (destruct (IH m) as [K|K]; [left; exact K|right; right; exact K]).
  right. apply IH.
Qed.

Lemma more_at : forall b toks n st c lab m t e r more, DAt located n st c -> named (map fst toks) ->
  (forall p, place_in toks AtOperand = Some p -> located n p) -> Expr t e -> r = TX \/ r = TY ->
  map fst toks = more_toks lab m t r more ->
  match do_understood n st (with_more lab m e r more) with
  | inl st' => exists c', line_step b toks c = CNext c' /\ DAt located (n + 1) st' c'
  | inr (msg, w) => line_step b toks c = CErr msg (place_in toks w)
  end.
Proof.
  intros b toks n st c lab m t e r more HR Nm Loc X R Hts. pose proof HR as [E P L Tt Rf F].
  assert (Hts' : map fst toks = lab_toks lab ++ TMnemonic m :: t :: TComma :: r :: more) by exact Hts.
  set (m' := last_name m more).
  assert (Nx : is_name m').
  { apply Nm. rewrite Hts'. apply in_or_app. right. destruct (last_name_in more m) as [K|K]; [left; exact K|do 4 right; exact K]. }
  apply is_name_mnemonic in Nx. destruct Nx as (M & HM).
  assert (Pl : forall l, t = TLabel l -> tok_pos toks (List.length (lab_toks lab) + 1) = place_in toks AtOperand /\
     exists p, place_in toks AtOperand = Some p /\ located n p).
  { intros l ->. destruct (place_behind toks lab m _ 0 l Hts' eq_refl) as [A (p & B)]; [intros; lia|]. rewrite Nat.add_0_r in A.
    split; [exact A|]. exists p. auto. }
  assert (St : forall c0, (if has_tok is_hash_or_a more
      then (forall z, masks (flags_of (more_toks lab m t r more)) z = 0)
      else exists o, operand_token o = Some t /\ with_more lab m e r more = Statement (SInstr lab m' o) /\
        instr_step b toks M (Some ((List.length (lab_toks lab) + 1)%nat, t)) (flags_of (more_toks lab m t r more)) c0 =
        instr_step b toks M (Some ((List.length (lab_toks lab) + 1)%nat, t)) (flags_op o) c0)).
  { intro c0. rewrite (flags_more _ _ _ _ _ _ X R). unfold with_more. rewrite hash_or_a.
    assert (XY : has_tok is_x (r :: more) || existsb (is_ty TOKEN_Y_REGISTER) (r :: more) = true) by
      (destruct R as [-> | ->]; cbn; [reflexivity|apply orb_true_r]).
    destruct (existsb (is_ty TOKEN_IMMEDIATE) more || existsb (is_ty TOKEN_ACCUMULATOR) more) eqn:IA.
    - intro z. apply masks_none; assumption.
    - apply orb_false_iff in IA. destruct IA as [-> ->].
      destruct (Expr_tok _ _ X) as [-> _]. fold m'.
      eexists. split; [|split; [reflexivity|]].
      { destruct (has_tok is_open_bracket more), (has_tok is_x (r :: more)); reflexivity. }
      apply instr_masks. intro z. destruct (has_tok is_x (r :: more)) eqn:Ex.
      + destruct (has_tok is_open_bracket more); reflexivity.
      + cbn [orb] in XY. rewrite XY. destruct (has_tok is_open_bracket more); reflexivity. }
  unfold line_step. rewrite Hts, (compile_more _ _ _ _ _ _ X R). fold m'. rewrite (str_to_mnemonic_name M m' HM).
  destruct (has_tok is_hash_or_a more) eqn:HA.
  - specialize (St c). assert (W : with_more lab m e r more = NoMode lab m' e) by (unfold with_more; rewrite HA; reflexivity). rewrite W.
    destruct (branch_name M m' HM) as [HB HJ].
    assert (Go : forall st0 c0, DAt located n st0 c0 -> 
      instr_step b toks M (Some ((List.length (lab_toks lab) + 1)%nat, t)) (flags_of (more_toks lab m t r more)) c0 =
      (if unresolved (d_env st0) (ODir e) && negb (is_branch_name m' || is_jump_name m')
       then CErr "illegal forward reference" (place_in toks AtOperand) else CErr "illegal addressing mode" None)).
    { intros st0 c0 D0. rewrite (instr_no_mode _ _ _ _ _ _ _ _ X St). unfold unresolved. cbn [operand_expr]. rewrite (r_env _ _ _ _ D0), HB, HJ.
      destruct X as [v|l]; [reflexivity|]. destruct (Pl l eq_refl) as [-> _]. reflexivity. }
    cbn [do_understood]. destruct lab as [l1|]; cbn [Spec_Diag.diag_stmt].
    + rewrite E. destruct (lookup (d_env st) l1).
      * f_equal. eapply first_in; exact Hts'.
      * rewrite P. rewrite (Go _ _ (define_at _ _ _ _ _ _ HR)). match goal with |- context [if ?q then CErr _ _ else _] => destruct q end; reflexivity.
    + rewrite (Go _ _ HR). match goal with |- context [if ?q then CErr _ _ else _] => destruct q end; reflexivity.
  - assert (exists o, operand_token o = Some t /\ with_more lab m e r more = Statement (SInstr lab m' o)) as (o & Ot & W) by (destruct (St c) as (o & A & B & _); eauto).
    rewrite W. cbn [do_understood].
    assert (Go : forall st0 c0, DAt located n st0 c0 ->
      match Spec_Diag.diag_instr AsBuilt n st0 m' o with
      | inl st' => exists c', instr_step b toks M (Some ((List.length (lab_toks lab) + 1)%nat, t)) (flags_of (more_toks lab m t r more)) c0 = CNext c' /\ DAt located (n + 1) st' c'
      | inr (msg, w) => instr_step b toks M (Some ((List.length (lab_toks lab) + 1)%nat, t)) (flags_of (more_toks lab m t r more)) c0 = CErr msg (place_in toks w)
      end).
    { intros st0 c0 D0. destruct (St c0) as (o' & _ & W' & ->). rewrite W in W'. injection W' as <-. apply instr_at; auto. rewrite Ot. eauto. }
    destruct lab as [l1|]; cbn [Spec_Diag.diag_stmt].
    + rewrite E. destruct (lookup (d_env st) l1).
      * f_equal. eapply first_in; exact Hts'.
      * rewrite P. apply Go. apply define_at, HR.
    + apply Go. exact HR.
Qed.

Lemma understood_at : forall b toks n st c u, DAt located n st c -> named (map fst toks) ->
  (forall p, place_in toks AtOperand = Some p -> located n p) -> Understood (map fst toks) u ->
  (u = Statement SEnd -> line_step b toks c = CFinish c) /\
  (u <> Statement SEnd -> match do_understood n st u with
    | inl st' => exists c', line_step b toks c = CNext c' /\ DAt located (n + 1) st' c'
    | inr (msg, w) => line_step b toks c = CErr msg (place_in toks w)
    end).
Proof.
  intros b toks n st c u HR Nm Loc HU. remember (map fst toks) as ts eqn:Et. destruct HU as [ts s HL|lab m t e r more X R J].
  - subst ts. pose proof (line_at b toks n st c s HR Nm Loc HL) as K. split; intro Hs.
    + injection Hs as ->. exact K.
    + cbn [do_understood]. destruct s; try exact K. congruence.
  - assert (N : with_more lab m e r more <> Statement SEnd) by (unfold with_more; destruct (has_tok _ _); discriminate).
    split; intro Hs; [congruence|]. rewrite Et in Nm. eapply more_at; eauto.
Qed.
End At.

(** ** Whole runs *)
Definition located_at (all : list text) (n : Z) (p : nat) : Prop :=
  exists line toks, nth_error all (Z.to_nat (n - 1)) = Some line /\ scanned line toks /\ place_in toks AtOperand = Some p.

Lemma high_undefined : forall line, HighByte line -> LexUndefined line.
Proof.
  intros line (toks & f & o & s & R & N & H). exists toks, f, o, s. split; [exact R|]. split; [exact N|].
  destruct H; [constructor 1|constructor 2|constructor 3]; auto.
Qed.

Lemma undefined_high : forall line, LexUndefined line -> HighByte line.
Proof.
  intros line (toks & f & o & s & R & N & H). exists toks, f, o, s. split; [exact R|]. split; [exact N|].
  destruct H; [constructor 1|constructor 2|constructor 3]; auto.
Qed.

Lemma reads_sim : forall all n st lines st' h, reads_on n st lines st' h -> forall c, part all n lines -> DAt (located_at all) n st c ->
  match h with
  | AtEnd => exists c' n', Run lines c (close c') /\ DAt (located_at all) n' st' c'
  | Rejected k m pos => Run lines c (FinErr m k pos (file_of (d_done st')))
  | Dropped => Run lines c (FinSilent (file_of (d_done st')))
  | Lost => Run lines c FinUndef
  end.
Proof.
  intros all n st lines st' h H.
  induction H as [n st|n st line rest toks L U|n st line rest toks u st' st2 h L U NE D H IH|n st line rest toks u m w L U D
                 |n st line rest toks i L D J|n st line rest e pos L|n st line rest L|n st line rest L]; intros c HP HR.
  - exists c, n. split; [constructor|exact HR].
  - destruct L as [L N].
    destruct (understood_at (located_at all) line toks n st c _ HR (Lexes_named _ _ _ _ _ L)
      (fun p Hp => ex_intro _ line (ex_intro _ toks (conj (part_nth _ _ _ _ HP) (conj (conj L N) Hp)))) U) as [K _].
    exists c, n. split; [eapply Run_finish; eauto|exact HR].
  - destruct L as [L N].
    destruct (understood_at (located_at all) line toks n st c _ HR (Lexes_named _ _ _ _ _ L)
      (fun p Hp => ex_intro _ line (ex_intro _ toks (conj (part_nth _ _ _ _ HP) (conj (conj L N) Hp)))) U) as [_ K].
    specialize (K NE). rewrite D in K. destruct K as (c1 & E1 & HR1).
    specialize (IH c1 (part_next _ _ _ _ HP) HR1). destruct h; [destruct IH as (c' & n' & R & HR'); exists c', n'; split; [|exact HR']| | |];
      (eapply Run_next; eauto).
  - destruct L as [L N].
    destruct (understood_at (located_at all) line toks n st c _ HR (Lexes_named _ _ _ _ _ L)
      (fun p Hp => ex_intro _ line (ex_intro _ toks (conj (part_nth _ _ _ _ HP) (conj (conj L N) Hp)))) U) as [_ K].
    assert (NE : u <> Statement SEnd) by (intros ->; discriminate D).
    specialize (K NE). rewrite D in K. rewrite <- (r_file _ _ _ _ HR). rewrite <- (r_line _ _ _ _ HR) at 1. eapply Run_err; eauto.
  - destruct L as [L N]. rewrite <- (r_file _ _ _ _ HR). rewrite <- (r_line _ _ _ _ HR) at 1. eapply Run_err; eauto.
    unfold line_step. destruct (compile (map fst toks)) as [cs|[b k]] eqn:C.
    + exfalso. destruct (compile_accepts _ _ C) as [(s & HL)|HJ]; [|exact (J HJ)].
      destruct D as (A & B & D & F). destruct (Nat.eq_dec i (List.length (map fst toks))) as [K|K]; [exact (F K s HL)|].
      apply D; [lia|]. exists (skipn (S i) (map fst toks)), s. rewrite firstn_skipn. exact HL.
    + destruct (compile_departs _ _ _ C) as [D2 <-]. rewrite (departs_unique _ _ _ D D2). destruct b; reflexivity.
  - rewrite <- (r_file _ _ _ _ HR). rewrite <- (r_line _ _ _ _ HR) at 1. apply (Run_lex line rest c e pos). exact L.
  - rewrite <- (r_file _ _ _ _ HR). apply Run_many. exact L.
  - apply Run_undef, high_undefined, L.
Qed.

Lemma understood_ok : forall line toks s, scanned line toks -> Understood (map fst toks) (Statement s) -> stmt_ok s.
Proof.
  intros line toks s [L _] U.
  assert (N : forall v, In (TNumber v) (map fst toks) -> 0 <= v <= 65535) by (apply (Lexes_numbers _ _ _ _ _ L wr_numbers)).
  inversion U as [ts s' HL|lab m t e r more X R J Et Es].
  - apply stmt16_ok, (Line_16 _ _ HL N). apply (Lexes_named _ _ _ _ _ L).
  - unfold with_more in Es. destruct (has_tok is_hash_or_a more); [discriminate|]. injection Es as <-. cbn [stmt_ok].
    assert (Ok : expr_ok e).
    { destruct X as [v|l]; [|exact I]. apply N. rewrite <- Et. apply in_or_app. right. right. left. reflexivity. }
    match goal with |- match operand_expr ?o with _ => _ end => assert (operand_expr o = Some e) as -> end; [|exact Ok].
    destruct (has_tok is_open_bracket more); match goal with |- context [if ?q then _ else _] => destruct q end; reflexivity.
Qed.

Lemma reads_good : forall n st lines st' h, reads_on n st lines st' h ->
  good_d st -> Forall (sound_placed AsBuilt (d_env st)) (d_done st) ->
  good_d st' /\ Forall (sound_placed AsBuilt (d_env st')) (d_done st').
Proof.
  intros n st lines st' h H. induction H as [| |n st line rest toks u st' st2 h L U NE D H IH| | | | |]; intros G S; auto.
  destruct u as [s|lab m e].
  - cbn [do_understood] in D. pose proof (understood_ok _ _ _ L U) as Ok.
    pose proof (diag_stmt_ref AsBuilt n st s S) as R. pose proof (diag_stmt_good n st s st' Ok G D) as K. rewrite D in R. apply IH; [exact K|apply R].
  - exfalso. cbn [do_understood] in D. destruct (match lab with Some _ => _ | None => _ end); [|discriminate].
    match type of D with (if ?q then _ else _) = _ => destruct q end; discriminate.
Qed.

(** *** every list of pieces can be read *)
Lemma end_dec : forall u, u = Statement SEnd \/ u <> Statement SEnd.
Proof. intros [[]|]; auto; right; discriminate. Qed.

Lemma junk_understood : forall ts, trailing_junk ts -> exists u, Understood ts u.
Proof.
  intros ts (front & m & t & e & r & junk & F & X & R & J & ->).
  destruct F as [-> |(n & ->)]; eexists.
  - apply (Understood_more None m t e r junk X R J).
  - apply (Understood_more (Some n) m t e r junk X R J).
Qed.

Theorem C74_total : forall l n st, exists st' h, reads_on n st l st' h.
Proof.
  induction l as [|line l IH]; intros n st; [do 2 eexists; constructor|].
  destruct (lex_outcomes line) as [(toks & L & N)|[(e & pos & L)|[L|L]]].
  - assert (D : (exists u, Understood (map fst toks) u) \/ (exists i, departs_at (map fst toks) i /\ ~ trailing_junk (map fst toks))).
    { destruct (compile (map fst toks)) as [c|[b i]] eqn:C.
      - left. destruct (compile_accepts _ _ C) as [(s & HL)|HJ]; [exists (Statement s); constructor; exact HL|apply junk_understood; exact HJ].
      - right. exists i. split; [apply (compile_departs _ _ _ C)|]. intro HJ. destruct (junk_compiles _ HJ). congruence. }
    destruct D as [(u & U)|(i & D & J)].
    + destruct (end_dec u) as [-> |NE]; [do 2 eexists; eapply on_end; [split; eassumption|exact U]|].
      destruct (do_understood n st u) as [st1|[m w]] eqn:E.
      * destruct (IH (n + 1) st1) as (st' & h & H). exists st', h. eapply on_next; eauto. split; assumption.
      * do 2 eexists. eapply on_error; eauto. split; assumption.
    + do 2 eexists. eapply on_syntax; eauto. split; assumption.
  - do 2 eexists. eapply on_lexical; eauto.
  - do 2 eexists. eapply on_many; eauto.
  - do 2 eexists. eapply on_high. apply undefined_high; eauto.
Qed.

Theorem C74_pieces : forall src, exists l, pieces src l.
Proof. intro src. destruct (cut_total _ src (le_n _)) as (cs & H). exists (map before_nul cs), cs. auto. Qed.


(** ** The reading of a list of pieces is unique *)
Lemma column_snoc : forall s c, (column s < column (s ++ [c]))%nat.
Proof.
  intros s c. unfold column. rewrite fold_left_app. cbn [fold_left]. unfold next_column at 2. destruct (Ascii.eqb c ch_tab); [|lia].
  set (x := fold_left next_column s 0%nat). pose proof (Nat.div_mod x 8 ltac:(lia)). pose proof (Nat.mod_upper_bound x 8 ltac:(lia)). lia.
Qed.

Lemma column_app : forall t s, (column s <= column (s ++ t))%nat.
Proof.
  induction t as [|c t IH]; intro s; [rewrite app_nil_r; lia|]. pose proof (column_snoc s c). specialize (IH (s ++ [c])).
  rewrite <- app_assoc in IH. cbn [app] in IH. lia.
Qed.

Lemma column_lt : forall line p q, (p < q)%nat -> (q <= List.length line)%nat -> (column (firstn p line) < column (firstn q line))%nat.
Proof.
  intros line p q H L. destruct (nth_error line p) as [c|] eqn:E; [|apply nth_error_None in E; lia].
  assert (S1 : firstn (S p) line = firstn p line ++ [c]).
  { clear - E. revert p E. induction line as [|x line IH]; intros [|p] E; try discriminate; cbn [nth_error firstn] in *.
    - injection E as ->. reflexivity.
    - cbn [app]. f_equal. apply IH. exact E. }
  pose proof (column_snoc (firstn p line) c) as A. rewrite <- S1 in A.
  assert (firstn q line = firstn (S p) line ++ firstn (q - S p) (skipn (S p) line)) as ->.
  { rewrite <- (firstn_skipn (S p) (firstn q line)). rewrite firstn_firstn, Nat.min_l by lia. f_equal. rewrite skipn_firstn_comm. reflexivity. }
  pose proof (column_app (firstn (q - S p) (skipn (S p) line)) (firstn (S p) line)). lia.
Qed.

Lemma report_pos : forall file n m line p q out, Report file n m line (Some p) out -> Report file n m line (Some q) out ->
  (p <= List.length line)%nat -> (q <= List.length line)%nat -> p = q.
Proof.
  intros file n m line p q out (s1 & H1 & E1) (s2 & H2 & E2) Lp Lq. rewrite (shown_as_fun _ _ _ H2 H1) in E2. rewrite E1 in E2.
  repeat (apply app_inv_head in E2).
  assert (C : column (firstn p line) = column (firstn q line)).
  { apply (f_equal (@List.length _)) in E2. rewrite !app_length, !repeat_length in E2. lia. }
  destruct (Nat.lt_trichotomy p q) as [H|[H|H]]; [|exact H|]; exfalso; eapply column_lt in H; eauto; lia.
Qed.

(** the ways a line can be lexed *)
Definition lexer0 : Lexer := st_lexer (init_state []).
Definition run_lexer (line : text) := lex_line line lexer0 init_token init_instruction 1.

Lemma lexed_scanned : forall line toks, scanned line toks -> exists a b c, run_lexer line = Ret (LEXER_SUCCESS, a, b, c, []).
Proof. intros line toks [L N]. unfold run_lexer. rewrite (lex_line_ok line [] 1 _ _ _ toks) by auto. eauto. Qed.

Lemma scanned_fun : forall line toks toks', scanned line toks -> scanned line toks' -> toks = toks'.
Proof. intros line toks toks' [L _] [L' _]. eapply Lexes_fun; eauto. intros n v v' [-> _] [-> _]. reflexivity. Qed.

Lemma fails_fun : forall line e pos e' pos', LexFails literal_wrapping line e pos -> LexFails literal_wrapping line e' pos' -> e = e' /\ pos = pos'.
Proof.
  intros line e pos e' pos' H H'.
  destruct (lex_line_fails line [] 1 lexer0 init_token init_instruction e pos eq_refl eq_refl H) as (a & b & c & out & E & R).
  destruct (lex_line_fails line [] 1 lexer0 init_token init_instruction e' pos' eq_refl eq_refl H') as (a' & b' & c' & out' & E' & R').
  rewrite E in E'. injection E' as Ee _ _ _ Eo. assert (e = e') as <- by (destruct e, e'; discriminate || reflexivity).
  split; [reflexivity|]. subst out'. eapply report_pos; eauto; eapply LexFails_pos; eauto.
Qed.

Inductive way := WOk | WFails | WMany | WHigh.
Definition goes (line : text) (w : way) : Prop :=
  match w with
  | WOk => exists toks, scanned line toks
  | WFails => exists e pos, LexFails literal_wrapping line e pos
  | WMany => TooManyTokens literal_wrapping line
  | WHigh => HighByte line
  end.

Lemma way_unique : forall line w w', goes line w -> goes line w' -> w = w'.
Proof.
  intros line.
  assert (K : forall w, goes line w -> match w with
    | WOk => exists a b c d, run_lexer line = Ret (LEXER_SUCCESS, a, b, c, d)
    | WFails => exists e a b c d, run_lexer line = Ret (error_code_of e, a, b, c, d)
    | WMany => exists a b c d, run_lexer line = Ret (ERROR_TOO_MANY_TOKENS, a, b, c, d)
    | WHigh => run_lexer line = Undef UbCtype end).
  { intros [| | |] H; cbn [goes] in H.
    - destruct H as (toks & H). destruct (lexed_scanned _ _ H) as (a & b & c & ->). eauto.
    - destruct H as (e & pos & H).
      destruct (lex_line_fails line [] 1 lexer0 init_token init_instruction e pos eq_refl eq_refl H) as (a & b & c & out & E & _).
      unfold run_lexer. rewrite E. exists e. eauto.
    - destruct (lex_line_many line [] 1 lexer0 init_token init_instruction eq_refl eq_refl H) as (a & b & c & E). unfold run_lexer. rewrite E. eauto.
    - apply (lex_line_undef line [] 1); auto. apply high_undefined, H. }
  intros w w' H H'. apply K in H, H'.
  destruct w, w'; try reflexivity; exfalso;
    repeat match goal with X : exists _, _ |- _ => destruct X as [? X] end;
    match goal with A : run_lexer _ = _, B : run_lexer _ = _ |- _ => rewrite A in B end; try discriminate;
    match goal with X : Ret _ = Ret _ |- _ => injection X as X end; try discriminate;
    match goal with e : lexical_error |- _ => destruct e; discriminate end.
Qed.

Lemma understood_fun : forall ts u u', Understood ts u -> Understood ts u' -> u = u'.
Proof.
  assert (LJ : forall lab m t e r more s, Expr t e -> (r = TX \/ r = TY) -> more <> [] -> ~ Line (more_toks lab m t r more) s).
  { intros lab m t e r more s X R J HL. destruct more as [|y more]; [congruence|].
    assert (NO : forall l o, Operand l o -> l <> t :: TComma :: r :: y :: more).
    { intros l o Ho El. destruct Ho; try discriminate; injection El; intros; subst; inversion X. }
    destruct lab; inversion HL; subst; eapply NO; eauto. }
  intros ts u u' H H'. inversion H as [ts1 s HL|lab m t e r more X R J Et Eu]; inversion H' as [ts2 s' HL'|lab' m' t' e' r' more' X' R' J' Et' Eu']; subst.
  - f_equal. eapply Line_fun; eauto.
  - exfalso. apply (LJ lab' m' t' e' r' more' s); auto.
  - exfalso. apply (LJ lab m t e r more s'); auto.
  - assert (lab' = lab /\ TMnemonic m' :: t' :: TComma :: r' :: more' = TMnemonic m :: t :: TComma :: r :: more) as [-> E].
    { destruct lab, lab'; cbn [app] in Et'; try (injection Et' as; subst); try discriminate; auto. }
    injection E as -> -> -> ->. rewrite (Expr_fun _ _ _ X X'). reflexivity.
Qed.

Theorem C74_unique : forall n st l st1 h1 st2 h2, reads_on n st l st1 h1 -> reads_on n st l st2 h2 -> st1 = st2 /\ h1 = h2.
Proof.
  intros n st l st1 h1 st2 h2 H. revert st2 h2.
  assert (W : forall line w w' (P : Prop), goes line w -> goes line w' -> w <> w' -> P) by
    (intros line w w' P A B N; exfalso; apply N; eapply way_unique; eauto).
  assert (Dep : forall ts i u, departs_at ts i -> ~ trailing_junk ts -> ~ Understood ts u).
  { intros ts i u (A & B & C & D) J U. inversion U as [ts1 s HL|lab m t e r more X R Jm]; subst.
    - destruct (Nat.eq_dec i (List.length ts)) as [K|K]; [exact (D K s HL)|]. apply C; [lia|]. exists (skipn (S i) ts), s. rewrite firstn_skipn. exact HL.
    - apply J. exists (match lab with Some n0 => [TLabel n0] | None => [] end), m, t, e, r, more.
      split; [destruct lab; eauto|]. auto. }
  induction H as [n st|n st line rest toks L U|n st line rest toks u st' st2 h L U NE D H IH|n st line rest toks u m w L U D
                 |n st line rest toks i L D J|n st line rest e pos L|n st line rest L|n st line rest L]; intros sx hx H2.
  - inversion H2; auto.
  - inversion H2 as [|? ? ? ? toks2 L2 U2|? ? ? ? toks2 u2 st3 ? ? L2 U2 NE2 D2 H2'|? ? ? ? toks2 u2 m2 w2 L2 U2 D2|? ? ? ? toks2 i2 L2 D2 J2|? ? ? ? e2 p2 L2|? ? ? ? L2|? ? ? ? L2]; subst;
      try (rewrite <- (scanned_fun _ _ _ L L2) in *); auto.
    + pose proof (understood_fun _ _ _ U U2). congruence.
    + pose proof (understood_fun _ _ _ U U2). subst. discriminate.
    + exfalso. eapply Dep; eauto.
    + apply (W line WOk WFails); cbn; eauto; discriminate.
    + apply (W line WOk WMany); cbn; eauto; discriminate.
    + apply (W line WOk WHigh); cbn; eauto; discriminate.
  - inversion H2 as [|? ? ? ? toks2 L2 U2|? ? ? ? toks2 u2 st3 ? ? L2 U2 NE2 D2 H2'|? ? ? ? toks2 u2 m2 w2 L2 U2 D2|? ? ? ? toks2 i2 L2 D2 J2|? ? ? ? e2 p2 L2|? ? ? ? L2|? ? ? ? L2]; subst;
      try (rewrite <- (scanned_fun _ _ _ L L2) in *).
    + pose proof (understood_fun _ _ _ U U2). congruence.
    + pose proof (understood_fun _ _ _ U U2). subst. rewrite D in D2. injection D2 as <-. apply IH. exact H2'.
    + pose proof (understood_fun _ _ _ U U2). subst. congruence.
    + exfalso. eapply Dep; eauto.
    + apply (W line WOk WFails); cbn; eauto; discriminate.
    + apply (W line WOk WMany); cbn; eauto; discriminate.
    + apply (W line WOk WHigh); cbn; eauto; discriminate.
  - inversion H2 as [|? ? ? ? toks2 L2 U2|? ? ? ? toks2 u2 st3 ? ? L2 U2 NE2 D2 H2'|? ? ? ? toks2 u2 m2 w2 L2 U2 D2|? ? ? ? toks2 i2 L2 D2 J2|? ? ? ? e2 p2 L2|? ? ? ? L2|? ? ? ? L2]; subst;
      try (rewrite <- (scanned_fun _ _ _ L L2) in *).
    + pose proof (understood_fun _ _ _ U U2). subst. discriminate.
    + pose proof (understood_fun _ _ _ U U2). subst. congruence.
    + pose proof (understood_fun _ _ _ U U2). subst. rewrite D in D2. injection D2 as <- <-. auto.
    + exfalso. eapply Dep; eauto.
    + apply (W line WOk WFails); cbn; eauto; discriminate.
    + apply (W line WOk WMany); cbn; eauto; discriminate.
    + apply (W line WOk WHigh); cbn; eauto; discriminate.
  - inversion H2 as [|? ? ? ? toks2 L2 U2|? ? ? ? toks2 u2 st3 ? ? L2 U2 NE2 D2 H2'|? ? ? ? toks2 u2 m2 w2 L2 U2 D2|? ? ? ? toks2 i2 L2 D2 J2|? ? ? ? e2 p2 L2|? ? ? ? L2|? ? ? ? L2]; subst;
      try (rewrite <- (scanned_fun _ _ _ L L2) in *); try (exfalso; eapply Dep; eauto; fail).
    + rewrite (departs_unique _ _ _ D D2). auto.
    + apply (W line WOk WFails); cbn; eauto; discriminate.
    + apply (W line WOk WMany); cbn; eauto; discriminate.
    + apply (W line WOk WHigh); cbn; eauto; discriminate.
  - inversion H2 as [|? ? ? ? toks2 L2 U2|? ? ? ? toks2 u2 st3 ? ? L2 U2 NE2 D2 H2'|? ? ? ? toks2 u2 m2 w2 L2 U2 D2|? ? ? ? toks2 i2 L2 D2 J2|? ? ? ? e2 p2 L2|? ? ? ? L2|? ? ? ? L2]; subst;
      try (apply (W line WFails WOk); cbn; eauto; discriminate).
    + destruct (fails_fun _ _ _ _ _ L L2) as [-> ->]. auto.
    + apply (W line WFails WMany); cbn; eauto; discriminate.
    + apply (W line WFails WHigh); cbn; eauto; discriminate.
  - inversion H2 as [|? ? ? ? toks2 L2 U2|? ? ? ? toks2 u2 st3 ? ? L2 U2 NE2 D2 H2'|? ? ? ? toks2 u2 m2 w2 L2 U2 D2|? ? ? ? toks2 i2 L2 D2 J2|? ? ? ? e2 p2 L2|? ? ? ? L2|? ? ? ? L2]; subst;
      try (apply (W line WMany WOk); cbn; eauto; discriminate); auto.
    + apply (W line WMany WFails); cbn; eauto; discriminate.
    + apply (W line WMany WHigh); cbn; eauto; discriminate.
  - inversion H2 as [|? ? ? ? toks2 L2 U2|? ? ? ? toks2 u2 st3 ? ? L2 U2 NE2 D2 H2'|? ? ? ? toks2 u2 m2 w2 L2 U2 D2|? ? ? ? toks2 i2 L2 D2 J2|? ? ? ? e2 p2 L2|? ? ? ? L2|? ? ? ? L2]; subst;
      try (apply (W line WHigh WOk); cbn; eauto; discriminate); auto.
    + apply (W line WHigh WFails); cbn; eauto; discriminate.
    + apply (W line WHigh WMany); cbn; eauto; discriminate.
Qed.

(** ** C74 *)
Theorem C74_result : forall file src l st h, small src -> pieces src l -> reads_on 1 (mkD 0 [] []) l st h ->
  result file l st h (gaia file src).
Proof.
  intros file src l st h HB HP H. pose proof (pieces_lines _ _ HP) as El.
  destruct (reads_good _ _ _ _ _ H good_init (Forall_nil _)) as [G S]. destruct (file_image st G S) as [I1 I2].
  assert (Pt : part l 1 l) by (exists []; split; reflexivity).
  pose proof (reads_sim l 1 _ _ _ _ H core_init Pt (DAt_init _)) as Sim.
  assert (Go : forall r, Run l core_init r -> settled file l (gaia file src) r).
  { intros r R. rewrite El in R |- *. destruct (gaia_run file src r R) as [Q|[_ K]]; [exact Q|]. change (zlen src < FEW) in HB. lia. }
  destruct h as [|k m pos| |]; cbn [result].
  - destruct Sim as (c & n & R & D). apply Go in R. pose proof (close_left _ _ _ _ D) as CL.
    pose proof (finish_at (located_at l) (d_env st) (d_done st) (c_refs c) (c_file c) (r_refs _ _ _ _ D)) as FA.
    unfold close in R, CL. rewrite (r_env _ _ _ _ D) in R, CL.
    destruct (complete AsBuilt (d_env st) (d_done st)) as [code|[k m]].
    + rewrite FA in R, CL. cbn [settled final_file left_file] in R, CL. injection CL as CL. eexists. split; [exact R|]. cbn [exit_code stdout binary].
      split; [reflexivity|]. split; [|rewrite CL; exact I2]. rewrite (r_total _ _ _ _ D), (r_env _ _ _ _ D). reflexivity.
    + destruct FA as (r & f' & FA & Ln & line & toks & Nl & Lx & Pl). rewrite FA in R, CL. cbn [settled final_file left_file] in R, CL.
      injection CL as ->. destruct R as (out & line' & R & _ & Nl' & Rp). rewrite Ln in Nl', Rp. rewrite Nl in Nl'. injection Nl' as <-.
      do 3 eexists. split; [exact R|]. split; [reflexivity|]. split; [exact Nl|]. split; [exact Lx|]. rewrite Pl. split; [exact Rp|exact I2].
  - apply Go in Sim. destruct Sim as (out & line & R & _ & Nl & Rp). do 2 eexists. split; [exact R|]. split; [reflexivity|]. split; [exact Nl|].
    split; [exact Rp|exact I1].
  - apply Go in Sim. eexists. split; [exact Sim|]. split; [reflexivity|]. split; [reflexivity|exact I1].
  - apply Go in Sim. eexists. exact Sim.
Qed.

(** *** the four ends, exactly *)
Lemma report_some : forall file n m line pos out, Report file n m line pos out -> out <> [].
Proof.
  intros file n m line pos out (shown & _ & ->) K. apply (f_equal (@List.length _)) in K. rewrite !app_length in K. cbn [T list_ascii_of_string List.length] in K. lia.
Qed.

Theorem C74_success : forall file src l, small src -> pieces src l ->
  ((exists o, gaia file src = Ret o /\ exit_code o = 0) <->
   exists st code, reads_on 1 (mkD 0 [] []) l st AtEnd /\ complete AsBuilt (d_env st) (d_done st) = inl code).
Proof.
  intros file src l HB HP. split.
  - intros (o & Eo & E0). destruct (C74_total l 1 (mkD 0 [] [])) as (st & h & H). pose proof (C74_result file src l st h HB HP H) as R.
    destruct h as [|k m pos| |]; cbn [result] in R.
    + destruct (complete AsBuilt (d_env st) (d_done st)) as [code|[k m]] eqn:C; [exists st, code; auto|].
      destruct R as (o' & ? & ? & R & E1 & _). congruence.
    + destruct R as (o' & ? & R & E1 & _). congruence.
    + destruct R as (o' & R & E1 & _). congruence.
    + destruct R as (u & R). congruence.
  - intros (st & code & H & C). pose proof (C74_result file src l st _ HB HP H) as R. cbn [result] in R. rewrite C in R.
    destruct R as (o & R & E & _). eauto.
Qed.

Theorem C74_silent : forall file src l, small src -> pieces src l ->
  ((exists o, gaia file src = Ret o /\ stdout o = []) <-> exists st, reads_on 1 (mkD 0 [] []) l st Dropped).
Proof.
  intros file src l HB HP. split.
  - intros (o & Eo & E0). destruct (C74_total l 1 (mkD 0 [] [])) as (st & h & H). pose proof (C74_result file src l st h HB HP H) as R.
    destruct h as [|k m pos| |]; cbn [result] in R; [exfalso|exfalso|eauto|exfalso].
    + destruct (complete AsBuilt (d_env st) (d_done st)) as [code|[k m]].
      * destruct R as (o' & R & _ & SR & _). rewrite R in Eo. injection Eo as ->. rewrite E0 in SR. discriminate SR.
      * destruct R as (o' & ? & ? & R & _ & _ & _ & SR & _). rewrite R in Eo. injection Eo as ->. exact (report_some _ _ _ _ _ _ SR E0).
    + destruct R as (o' & ? & R & _ & _ & SR & _). rewrite R in Eo. injection Eo as ->. exact (report_some _ _ _ _ _ _ SR E0).
    + destruct R as (u & R). congruence.
  - intros (st & H). pose proof (C74_result file src l st _ HB HP H) as (o & R & _ & E & _). eauto.
Qed.

Theorem C74_undefined : forall file src l, small src -> pieces src l ->
  ((exists u, gaia file src = Undef u) <-> exists st, reads_on 1 (mkD 0 [] []) l st Lost).
Proof.
  intros file src l HB HP. split.
  - intros (u & Eu). destruct (C74_total l 1 (mkD 0 [] [])) as (st & h & H). pose proof (C74_result file src l st h HB HP H) as R.
    destruct h as [|k m pos| |]; cbn [result] in R; [exfalso|exfalso|exfalso|eauto].
    + destruct (complete AsBuilt (d_env st) (d_done st)) as [code|[k m]]; [destruct R as (o' & R & _)|destruct R as (o' & ? & ? & R & _)]; congruence.
    + destruct R as (o' & ? & R & _). congruence.
    + destruct R as (o' & R & _). congruence.
  - intros (st & H). exact (C74_result file src l st _ HB HP H).
Qed.

(** ** The hypotheses are met *)
Lemma scanned_check : forall line toks, tokens line = Some toks -> (List.length toks <= 8)%nat -> scanned line toks.
Proof. intros line toks H N. split; [apply Lexes_wr, tokens_ok; exact H|exact N]. Qed.

(** a line with more behind its operand is a different instruction *)
Example C74_more_case : exists st o, pieces (T " LDA 5,Y STA X" ++ [ch_nl]) [T " LDA 5,Y STA X" ++ [ch_nl]] /\
  reads_on 1 (mkD 0 [] []) [T " LDA 5,Y STA X" ++ [ch_nl]] st AtEnd /\
  complete AsBuilt (d_env st) (d_done st) = inl [(0, [149; 5])] /\
  gaia (T "a.asm") (T " LDA 5,Y STA X" ++ [ch_nl]) = Ret o /\ exit_code o = 0 /\ binary o = [149; 5].
Proof.
  set (line := T " LDA 5,Y STA X" ++ [ch_nl]). do 2 eexists. split.
  { exists [line]. split; [|reflexivity]. apply (cut_line (T " LDA 5,Y STA X") [] []); [vm_compute; intuition discriminate|vm_compute; lia|constructor]. }
  split.
  { eapply (on_next _ _ _ _ _ (with_more None "LDA" (Num 5) TY [TMnemonic "STA"; TX])).
    - apply scanned_check; [vm_compute; reflexivity|cbn; lia].
    - apply (Understood_more None "LDA" (TNumber 5) (Num 5) TY [TMnemonic "STA"; TX]); [constructor|auto|discriminate].
    - discriminate.
    - vm_compute; reflexivity.
    - constructor. }
  split; [vm_compute; reflexivity|]. split; [vm_compute; reflexivity|]. split; reflexivity.
Qed.

(** one line of 131 characters is two pieces, and here two statements *)
Example C74_long_case : exists l, pieces (T "NOP" ++ repeat ch_sp 124 ++ T "NOP" ++ [ch_nl]) l /\
  l = [T "NOP" ++ repeat ch_sp 124; T "NOP" ++ [ch_nl]] /\
  exists st, reads_on 1 (mkD 0 [] []) l st AtEnd /\ complete AsBuilt (d_env st) (d_done st) = inl [(0, [234]); (1, [234])].
Proof.
  eexists. split.
  { exists [T "NOP" ++ repeat ch_sp 124; T "NOP" ++ [ch_nl]]. split; [|reflexivity].
    apply (cut_long (T "NOP" ++ repeat ch_sp 124) (T "NOP" ++ [ch_nl]) [T "NOP" ++ [ch_nl]]).
    - intro K. apply in_app_or in K. destruct K as [K|K]; [vm_compute in K; intuition discriminate|]. apply repeat_spec in K. discriminate.
    - reflexivity.
    - apply (cut_line (T "NOP") [] []); [vm_compute; intuition discriminate|vm_compute; lia|constructor]. }
  split; [reflexivity|]. eexists. split.
  { eapply (on_next _ _ _ _ _ (Statement (SInstr None "NOP" ONone))).
    - apply scanned_check; [vm_compute; reflexivity|cbn; lia].
    - constructor. constructor. constructor.
    - discriminate.
    - vm_compute; reflexivity.
    - eapply (on_next _ _ _ _ _ (Statement (SInstr None "NOP" ONone))).
      + apply scanned_check; [vm_compute; reflexivity|cbn; lia].
      + constructor. constructor. constructor.
      + discriminate.
      + vm_compute; reflexivity.
      + constructor. }
  vm_compute. reflexivity.
Qed.

(** a high byte *)
Example C74_lost_case : let src := T "NOP" ++ [ch_nl] ++ T "LDA " ++ [chr 200; ch_nl] in
  (exists l st, pieces src l /\ reads_on 1 (mkD 0 [] []) l st Lost) /\ gaia (T "a.asm") src = Undef UbCtype.
Proof.
  cbv zeta. split; [|vm_compute; reflexivity].
  assert (P : pieces (T "NOP" ++ [ch_nl] ++ T "LDA " ++ [chr 200; ch_nl]) [T "NOP" ++ [ch_nl]; T "LDA " ++ [chr 200; ch_nl]]).
  { exists [T "NOP" ++ [ch_nl]; (T "LDA " ++ [chr 200]) ++ [ch_nl]]. split; [|reflexivity].
    apply (cut_line (T "NOP") ((T "LDA " ++ [chr 200]) ++ [ch_nl])); [vm_compute; intuition discriminate|vm_compute; lia|].
    apply (cut_line (T "LDA " ++ [chr 200]) [] []); [vm_compute; intuition discriminate|vm_compute; lia|constructor]. }
  assert (B : small (T "NOP" ++ [ch_nl] ++ T "LDA " ++ [chr 200; ch_nl])) by (vm_compute; reflexivity).
  destruct (C74_undefined (T "a.asm") _ _ B P) as [K _].
  destruct K as (st & K); [exists UbCtype; vm_compute; reflexivity|]. do 2 eexists. split; [exact P|exact K].
Qed.
