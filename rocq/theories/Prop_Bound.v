(** Prop_Bound.v -- C77: the size of the output file, for every source text. *)
From Verif Require Import Base Proof_Base Model_Opcode Model_Error Model_Lexer Model_SymbolTable Model_Parser Model_Generator Model_ForwardRef Model_Main
  Spec_Isa Spec_Text Spec_Asm Spec_Diag Spec_Link Spec_Grammar Spec_Prog Spec_Report Spec_Left Spec_Total
  Proof_Opcode Proof_Error Proof_Modes Proof_Lex1 Proof_Lex2 Proof_Core Proof_Parse Proof_Sim1 Prop_Table Proof_Sim2 Proof_Run Proof_Source Proof_Diag Proof_Whole Proof_Ref Proof_Image Proof_Grammar Proof_At Proof_Prog Proof_Check
  Proof_Crash Proof_Fun Prop_Edit Prop_State Prop_Lines Prop_Left Prop_Total.

(** ** Addresses *)
Definition low (st : dstate) : Prop :=
  d_addr st <= 65535 + 3 * zlen (d_done st) /\
  forall i q, nth_error (d_done st) i = Some q -> pl_end q <= 65535 + 3 * (1 + Z.of_nat i) /\ it_size (pl_item q) <= 3.

Lemma low_instr : forall n st m o st', low st -> diag_instr AsBuilt n st m o = inl st' ->
  low st' /\ zlen (d_done st') <= zlen (d_done st) + 1.
Proof.
  intros n st m o st' [L1 L2] H. unfold Spec_Diag.diag_instr in H. destruct (_ && _); [discriminate|].
  destruct (denoted_mode m o _) as [md|]; [|discriminate].
  destruct (has_mode AsBuilt m md _) as [[op size]|] eqn:E; [|discriminate].
  destruct (has_mode_bytes _ _ _ _ _ _ E) as [Sz _].
  assert (size <= 3) by (rewrite Sz; destruct (narrow md), (wide md); lia).
  set (it := mkItem (d_addr st) m md op size (operand_expr o)) in *.
  assert (Q : forall b, low (mkD (d_addr st + size) (d_env st) (d_done st ++ [mkPlaced n it b])) /\
    zlen (d_done (mkD (d_addr st + size) (d_env st) (d_done st ++ [mkPlaced n it b]))) <= zlen (d_done st) + 1).
  { intro b. unfold low. cbn [d_addr d_done]. unfold zlen in *. rewrite app_length. cbn [List.length]. split; [|lia]. split; [lia|].
    intros i q Hi. destruct (Nat.lt_ge_cases i (List.length (d_done st))) as [K|K].
    - rewrite nth_error_app1 in Hi by exact K. apply L2. exact Hi.
    - rewrite nth_error_app2 in Hi by exact K. destruct (i - List.length (d_done st))%nat as [|j] eqn:J; [|destruct j; discriminate].
      cbn in Hi. injection Hi as <-. unfold pl_end. cbn [pl_item it_addr it_size it]. split; lia. }
  destruct (unresolved (d_env st) o); [injection H as <-; apply Q|]. destruct (encode_operand AsBuilt (d_env st) it); [|discriminate].
  injection H as <-. apply Q.
Qed.

Lemma low_stmt : forall n st s st', low st -> stmt16 s -> diag_stmt AsBuilt n st s = inl st' ->
  low st' /\ zlen (d_done st') <= zlen (d_done st) + 1.
Proof.
  intros n st s st' L S H. pose proof L as [L1 L2].
  destruct s; cbn [Spec_Diag.diag_stmt] in H;
    try (injection H as <-; split; [exact L|lia]);
    try (match type of H with (match ?q with _ => _ end) = _ => destruct q; try discriminate end; injection H as <-; split; [exact L|cbn; lia]);
    try (injection H as <-; cbn [d_done]; split; [|lia]; split; [|exact L2]; cbn [d_addr d_done]; cbn in S; unfold zlen; lia).
  destruct lab as [l|]; [destruct (lookup (d_env st) l); [discriminate|]|]; (apply low_instr in H; [exact H|exact L]).
Qed.

Lemma understood_16 : forall line toks s, scanned line toks -> Understood (map fst toks) (Statement s) -> stmt16 s.
Proof.
  intros line toks s [L _] U.
  assert (N : forall v, In (TNumber v) (map fst toks) -> 0 <= v <= 65535) by (apply (Lexes_numbers _ _ _ _ _ L wr_numbers)).
  pose proof (Lexes_named _ _ _ _ _ L) as Nm.
  inversion U as [ts s' HL|lab m t e r more X R J Et Es].
  - apply (Line_16 _ _ HL N). exact Nm.
  - unfold with_more in Es. destruct (has_tok is_hash_or_a more); [discriminate|]. injection Es as <-. cbn [stmt16].
    assert (Ok : expr16 e).
    { destruct X as [v|l]; [|exact I]. apply N. rewrite <- Et. apply in_or_app. right. right. left. reflexivity. }
    split.
    + assert (Q : forall l m0, (forall m', In (TMnemonic m') (TMnemonic m0 :: l) -> is_name m') -> is_name (last_name m0 l)).
      { induction l as [|x l IH]; intros m0 H; [apply H; left; reflexivity|].
        destruct x; cbn [last_name]; apply IH; intros m' K; apply H; cbn in K |- *; tauto. }
      apply Q. intros m' K. apply Nm. rewrite <- Et. apply in_or_app. right. cbn [app]. destruct K as [K|K]; [left; exact K|].
      right. right. right. right. exact K.
    + match goal with |- match operand_expr ?o with _ => _ end => assert (operand_expr o = Some e) as -> end; [|exact Ok].
      destruct (has_tok is_open_bracket more); match goal with |- context [if ?q then _ else _] => destruct q end; reflexivity.
Qed.

Lemma reads_low : forall n st lines st' h, reads_on n st lines st' h -> low st ->
  low st' /\ zlen (d_done st') <= zlen (d_done st) + zlen lines.
Proof.
  intros n st lines st' h H. induction H as [| |n st line rest toks u st1 st2 h L U NE D H IH| | | | |]; intros G;
    try (split; [exact G|]; match goal with |- _ <= _ + zlen ?x => pose proof (zlen_pos _ x); lia end).
  destruct u as [s|lab m e].
  - cbn [do_understood] in D. destruct (low_stmt _ _ _ _ G (understood_16 _ _ _ L U) D) as [G' Z']. destruct (IH G') as [G2 Z2].
    split; [exact G2|]. rewrite zlen_cons. lia.
  - exfalso. cbn [do_understood] in D. destruct (match lab with Some _ => _ | None => _ end); [|discriminate].
    match type of D with (if ?q then _ else _) = _ => destruct q end; discriminate.
Qed.

(** ** Pieces of the file *)
Lemma first_low : forall l z n0 N, Forall good_placed l -> z <= 65535 + 3 * n0 ->
  (forall i q, nth_error l i = Some q -> pl_end q <= 65535 + 3 * (1 + n0 + Z.of_nat i) /\ it_size (pl_item q) <= 3) ->
  n0 + zlen l <= N -> Forall (fun w => fst w + zlen (snd w) <= 65535 + 3 * N) (first_writes z l).
Proof.
  induction l as [|q l IH]; intros z n0 N G Hz Hl Hn; [constructor|].
  inversion G as [|? ? (G1 & G2 & G3 & G4) G']; subst. cbn [first_writes]. rewrite zlen_cons in Hn.
  destruct (Hl 0%nat q eq_refl) as [L1 L2]. pose proof (zlen_pos _ l). apply Forall_app. split.
  - unfold pl_end in L1. destruct (pl_bytes q) as [bs|].
    + constructor; [|constructor]. cbn [fst snd]. rewrite zlen_cons. destruct G4 as [_ G4]. lia.
    + constructor; [|constructor; [|constructor]]; cbn [fst snd]; rewrite ?zlen_cons, zlen_zeros by lia; lia.
  - apply (IH (pl_end q) (n0 + 1)); [exact G'|lia| |lia].
    intros i q' Hi. destruct (Hl (S i) q' Hi) as [K1 K2]. lia.
Qed.

Lemma completed_low : forall e l B, Forall (fun p => good_item (pl_item p)) l -> (forall q, In q l -> pl_end q <= B) ->
  Forall (fun w => fst w + zlen (snd w) <= B) (completed AsBuilt e l).
Proof.
  intros e l B G. induction G as [|q l Gq G IH]; intro H; [constructor|]. cbn [completed].
  assert (IH' := IH (fun q' Hq => H q' (or_intror Hq))). destruct (pl_bytes q); [exact IH'|].
  destruct (encode_operand AsBuilt e (pl_item q)) as [bs|] eqn:E; [|constructor]. constructor; [|exact IH'].
  cbn [fst snd]. rewrite zlen_cons, <- (encode_length _ _ _ Gq E). apply (H q). left. reflexivity.
Qed.

Lemma image_bytes : forall l bin, Forall good_piece l -> is_image l bin -> Forall (fun b => 0 <= b < 256) bin.
Proof.
  intros l bin G [Ln H]. apply Forall_forall. intros b Hb. destruct (In_nth_error _ _ Hb) as (i & Hi).
  assert (i < List.length bin)%nat by (apply nth_error_Some; congruence).
  specialize (H (Z.of_nat i) ltac:(lia)). rewrite Nat2Z.id, Hi in H. injection H as ->.
  destruct (byte_at l (Z.of_nat i)) as [b|] eqn:E; [|lia]. clear - G E.
  induction G as [|[p bs] l (G1 & G2 & G3) G IH]; [discriminate|]. cbn [byte_at] in E.
  destruct (byte_at l (Z.of_nat i)) as [b'|]; [injection E as ->; auto|]. destruct (_ && _); [|discriminate].
  cbn [snd] in G3. rewrite Forall_forall in G3. apply G3. eapply nth_error_In. exact E.
Qed.

(** ** C77 *)
Theorem C77_size : forall file src l o, small src -> pieces src l -> gaia file src = Ret o ->
  Z.of_nat (List.length (binary o)) <= 65535 + 3 * Z.of_nat (List.length l) /\
  Forall (fun b => 0 <= b < 256) (binary o).
Proof.
  intros file src l o HB HP HG. destruct (C74_total l 1 (mkD 0 [] [])) as (st & h & H).
  pose proof (C74_result file src l st h HB HP H) as R.
  destruct (reads_good _ _ _ _ _ H good_init (Forall_nil _)) as [G S]. pose proof (all_good st G S) as A.
  destruct (reads_low _ _ _ _ _ H) as [[L1 L2] Ln].
  { split; [cbn; lia|]. intros [|i] q Hq; discriminate. }
  cbn [d_done zlen] in Ln. change (zlen (@nil Spec_Diag.placed)) with 0 in Ln. rewrite Z.add_0_l in Ln. fold (zlen l). set (N := zlen l) in *.
  assert (B0 : 0 <= 65535 + 3 * N) by (pose proof (zlen_pos _ l); lia).
  assert (F1 : Forall (fun w => fst w + zlen (snd w) <= 65535 + 3 * N) (first_writes 0 (d_done st))).
  { apply (first_low _ 0 0); [exact A|lia| |lia]. intros i q Hi. destruct (L2 i q Hi). split; [lia|assumption]. }
  assert (F2 : Forall (fun w => fst w + zlen (snd w) <= 65535 + 3 * N) (completed AsBuilt (d_env st) (d_done st))).
  { apply completed_low; [apply G|]. intros q Hq. destruct (In_nth_error _ _ Hq) as (i & Hi). destruct (L2 i q Hi) as [K _].
    assert (i < List.length (d_done st))%nat by (apply nth_error_Some; congruence). unfold zlen in Ln. lia. }
  pose proof (first_good (d_done st) 0 (Z.le_refl 0) A) as W1. pose proof (completed_good st (d_env st) G S) as W2.
  assert (Q1 : is_image (first_writes 0 (d_done st)) (binary o) -> Z.of_nat (List.length (binary o)) <= 65535 + 3 * N /\ Forall (fun b => 0 <= b < 256) (binary o)).
  { intro I. split; [|eapply image_bytes; [exact W1|exact I]]. destruct I as [-> _]. apply (image_end_le _ _ B0). exact F1. }
  assert (Q2 : is_image (first_writes 0 (d_done st) ++ completed AsBuilt (d_env st) (d_done st)) (binary o) ->
    Z.of_nat (List.length (binary o)) <= 65535 + 3 * N /\ Forall (fun b => 0 <= b < 256) (binary o)).
  { intro I. split; [|eapply image_bytes; [|exact I]; apply Forall_app; auto]. destruct I as [-> _]. apply (image_end_le _ _ B0). apply Forall_app. auto. }
  destruct h as [|k m pos| |]; cbn [result] in R.
  - destruct (complete AsBuilt (d_env st) (d_done st)) as [code|[k m]].
    + destruct R as (o' & R & _ & _ & I). rewrite HG in R. injection R as ->. auto.
    + destruct R as (o' & ? & ? & R & _ & _ & _ & _ & I). rewrite HG in R. injection R as ->. auto.
  - destruct R as (o' & ? & R & _ & _ & _ & I). rewrite HG in R. injection R as ->. auto.
  - destruct R as (o' & R & _ & _ & I). rewrite HG in R. injection R as ->. auto.
  - destruct R as (u & R). congruence.
Qed.

(** the number of pieces: one for each newline, one for 127 bytes without, and the last one *)
Definition newlines (s : text) : Z := Z.of_nat (List.length (filter (Ascii.eqb ch_nl) s)).

Theorem C77_pieces : forall src l, pieces src l ->
  Z.of_nat (List.length l) <= newlines src + Z.of_nat (List.length src) / 127 + 1.
Proof.
  intros src l (cs & H & ->). rewrite map_length.
  assert (Q : exists long, Z.of_nat (List.length cs) <= newlines src + long + 1 /\ 127 * long <= Z.of_nat (List.length src)).
  { induction H as [|l rest ls N L H (g & IH1 & IH2)|l rest ls N L H (g & IH1 & IH2)|l N L].
    - exists 0. cbn. lia.
    - exists g. unfold newlines in *. rewrite filter_app, !app_length. cbn [filter List.length]. rewrite Ascii.eqb_refl. cbn [List.length]. lia.
    - exists (g + 1). unfold newlines in *. rewrite filter_app, !app_length. cbn [List.length]. lia.
    - exists 0. unfold newlines. cbn [List.length]. lia. }
  destruct Q as (g & Q1 & Q2). assert (g <= Z.of_nat (List.length src) / 127) by (apply Z.div_le_lower_bound; lia). lia.
Qed.

(** the bound is nearly reached: an origin at $FFFF and jumps *)
Example C77_case : exists o, gaia (T "f") (join [T ".ORG $FFFF"; T "L JMP L"; T " JMP L"]) = Ret o /\
  Z.of_nat (List.length (binary o)) = 65535 + 3 * 2 /\ exit_code o = 0.
Proof.
  assert (H : match gaia (T "f") (join [T ".ORG $FFFF"; T "L JMP L"; T " JMP L"]) with
    | Ret o => (Z.of_nat (List.length (binary o)) =? 65535 + 3 * 2) && (exit_code o =? 0) | _ => false end = true) by (vm_compute; reflexivity).
  destruct (gaia _ _) as [o| |]; [|discriminate|discriminate]. exists o. split; [reflexivity|].
  apply andb_prop in H as [H1 H2]. apply Z.eqb_eq in H1, H2. auto.
Qed.
