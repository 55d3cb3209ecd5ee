(** Proof_Listing.v -- the lines of the disassembler of Spec_Listing.v and their meaning. *)
From Verif Require Import Base Proof_Base Spec_Isa Spec_Text Spec_Asm Spec_Diag Spec_Prog Proof_Check Spec_Listing.

(** facts about the table, by computation *)
Definition shiftb (m : string) : bool := existsb (String.eqb m) ["ASL"; "LSR"; "ROL"; "ROR"]%string.
Definition row_ok (row : string * mode * Z * Z) : bool :=
  let '(m, md, op, n) := row in
  match listed m md with Some (op', n') => (op' =? op) && (n' =? n) | None => false end &&
  match decode op with Some (m', md', n') => String.eqb m' m && mode_eqb md' md && (n' =? n) | None => false end &&
  (n =? 1 + operand_bytes md) && Bool.eqb (is_branch_name m) (mode_eqb md REL) && Bool.eqb (jump m) (is_jump_name m) &&
  (negb (is_jump_name m) || mode_eqb md ABS || mode_eqb md IND) && (negb (mode_eqb md IND) || is_jump_name m) &&
  (negb (mode_eqb md ACC) || shiftb m) && (negb (mode_eqb md IMP) || negb (shiftb m)) &&
  match wordb (T m) with Some (TMnemonic m') => String.eqb m' m | _ => false end && (List.length (T m) =? 3)%nat &&
  negb (existsb (Ascii.eqb ch_nl) (T m)) && (op <? 256).

Lemma table_ok : forallb row_ok table = true.
Proof. vm_compute. reflexivity. Qed.

Lemma mode_eqb_eq : forall a b, mode_eqb a b = true -> a = b.
Proof. intros [] []; intro H; try discriminate; reflexivity. Qed.

(** an instruction of the table *)
Record row (op : Z) (m : string) (md : mode) (n : Z) : Prop := {
  r_listed : listed m md = Some (op, n);
  r_size : n = 1 + operand_bytes md;
  r_branch : is_branch_name m = mode_eqb md REL;
  r_jump : jump m = is_jump_name m;
  r_jump_mode : is_jump_name m = true -> md = ABS \/ md = IND;
  r_ind : md = IND -> is_jump_name m = true;
  r_acc : md = ACC -> shiftb m = true;
  r_imp : md = IMP -> shiftb m = false;
  r_word : word literal16 (T m) (TMnemonic m);
  r_length : List.length (T m) = 3%nat;
  r_line : ~ In ch_nl (T m) }.

Lemma decode_row : forall op m md n, decode op = Some (m, md, n) -> row op m md n.
Proof.
  intros op m md n H. unfold decode in H. destruct (find _ table) as [[[[a b] c] d]|] eqn:F; [|discriminate].
  injection H as -> -> ->. apply find_some in F. destruct F as [I E]. apply Z.eqb_eq in E. subst c.
  pose proof (proj1 (forallb_forall _ _) table_ok _ I) as R. unfold row_ok in R. rewrite !andb_true_iff in R.
  destruct R as [[[[[[[[[[[[A B] C] D] E] F] G] H] K] L] N] P] _].
  destruct (listed m md) as [[op' n']|] eqn:El; [|discriminate]. apply andb_true_iff in A. destruct A as [A1 A2].
  apply Z.eqb_eq in A1, A2, C. apply eqb_prop in D, E. subst op' n'.
  destruct (wordb (T m)) as [t|] eqn:W; [|discriminate]. destruct t as [ |m' | | | | | | | | | | | ]; try discriminate.
  apply String.eqb_eq in L. subst m'. apply Nat.eqb_eq in N.
  constructor; auto.
  - intro J. rewrite J in F. cbn [negb orb] in F. apply orb_true_iff in F. destruct F as [F|F]; apply mode_eqb_eq in F; auto.
  - intros ->. cbn in G. exact G.
  - intros ->. cbn in H. exact H.
  - intros ->. cbn in K. apply negb_true_iff in K. exact K.
  - apply wordb_ok. exact W.
  - intro J. apply negb_true_iff in P. assert (X : existsb (Ascii.eqb ch_nl) (T m) = true); [|congruence].
    apply existsb_exists. exists ch_nl. split; [exact J|apply Ascii.eqb_refl].
Qed.

(** hexadecimal numerals *)
Lemma digit_cases : forall d, 0 <= d < 16 -> In d [0;1;2;3;4;5;6;7;8;9;10;11;12;13;14;15].
Proof. intros d H. cbn. lia. Qed.

Lemma hex1_digit : forall d, 0 <= d < 16 -> digit_of Hex (hex1 d) d.
Proof.
  intros d H. apply digit_cases in H.
  assert (L : Forall (fun d => digit_of Hex (hex1 d) d) [0;1;2;3;4;5;6;7;8;9]).
  { repeat (apply Forall_cons; [match goal with |- digit_of Hex ?c ?d => change (digit_of Hex c (code c - 48)); apply digit_hex; vm_compute; split; discriminate end|]). apply Forall_nil. }
  assert (U : Forall (fun d => digit_of Hex (hex1 d) d) [10;11;12;13;14;15]).
  { repeat (apply Forall_cons; [match goal with |- digit_of Hex ?c ?d => change (digit_of Hex c (code c - 55)); apply digit_hex_upper; vm_compute; split; discriminate end|]). apply Forall_nil. }
  change (In d ([0;1;2;3;4;5;6;7;8;9] ++ [10;11;12;13;14;15])) in H. rewrite Forall_forall in L, U. apply in_app_or in H. destruct H; auto.
Qed.

Lemma hex1_line : forall d, 0 <= d < 16 -> hex1 d <> ch_nl.
Proof.
  intros d H. apply digit_cases in H.
  assert (L : Forall (fun d => hex1 d <> ch_nl) [0;1;2;3;4;5;6;7;8;9;10;11;12;13;14;15]) by (repeat constructor; discriminate).
  rewrite Forall_forall in L. auto.
Qed.

Lemma byte_digits : forall b, isbyte b = true -> 0 <= b / 16 < 16 /\ 0 <= b mod 16 < 16 /\ 0 <= b < 256.
Proof.
  intros b H. unfold isbyte in H. apply andb_true_iff in H. destruct H as [A B]. apply Z.leb_le in A. apply Z.ltb_lt in B.
  pose proof (Z.mod_pos_bound b 16 ltac:(lia)). split; [|lia]. split; [apply Z.div_pos; lia|apply Z.div_lt_upper_bound; lia].
Qed.

Lemma hex2_number : forall b, isbyte b = true -> number Hex (hex2 b) b.
Proof.
  intros b H. apply byte_digits in H. destruct H as (A & B & C). unfold hex2.
  replace b with (b / 16 * radix Hex ^ Z.of_nat (List.length [hex1 (b mod 16)]) + b mod 16) at 3.
  - apply number_more; [apply hex1_digit; exact A|]. apply number_one. apply hex1_digit. exact B.
  - cbn [radix List.length]. change (16 ^ Z.of_nat 1) with 16. pose proof (Z.div_mod b 16 ltac:(lia)). lia.
Qed.

Lemma hex4_number : forall l h, isbyte l = true -> isbyte h = true -> number Hex (hex4 l h) (l + 256 * h).
Proof.
  intros l h L H. apply hex2_number in L as Nl. apply byte_digits in H. destruct H as (A & B & C). unfold hex4, hex2 at 1. cbn [app].
  replace (l + 256 * h) with (h / 16 * radix Hex ^ Z.of_nat (List.length (hex1 (h mod 16) :: hex2 l)) +
    (h mod 16 * radix Hex ^ Z.of_nat (List.length (hex2 l)) + l)).
  - apply number_more; [apply hex1_digit; exact A|]. apply number_more; [apply hex1_digit; exact B|]. exact Nl.
  - unfold hex2. cbn [radix List.length]. change (16 ^ Z.of_nat 3) with 4096. change (16 ^ Z.of_nat 2) with 256.
    pose proof (Z.div_mod h 16 ltac:(lia)). lia.
Qed.

Lemma word2 : forall b, isbyte b = true -> word literal16 (T "$" ++ hex2 b) (TNumber b).
Proof.
  intros b H. apply (word_numeral _ _ b b); [exists Hex, (hex2 b); split; [reflexivity|apply hex2_number; exact H]|].
  apply byte_digits in H. split; [reflexivity|lia].
Qed.
Lemma word4 : forall l h, isbyte l = true -> isbyte h = true -> word literal16 (T "$" ++ hex4 l h) (TNumber (l + 256 * h)).
Proof.
  intros l h L H. apply (word_numeral _ _ (l + 256 * h) (l + 256 * h)); [exists Hex, (hex4 l h); split; [reflexivity|apply hex4_number; assumption]|].
  apply byte_digits in H, L. split; [reflexivity|lia].
Qed.

(** the operand of an instruction *)
Definition operand_for (md : mode) (bs : list Z) : operand :=
  match md, bs with
  | IMM, [b] => OImm (Num b)
  | (ZP | REL), [b] => ODir (Num b)
  | ZPX, [b] => ODirX (Num b)
  | ZPY, [b] => ODirY (Num b)
  | INDX, [b] => OIndX (Num b)
  | INDY, [b] => OIndY (Num b)
  | ABS, [l; h] => ODir (Num (l + 256 * h))
  | ABSX, [l; h] => ODirX (Num (l + 256 * h))
  | ABSY, [l; h] => ODirY (Num (l + 256 * h))
  | IND, [l; h] => OInd (Num (l + 256 * h))
  | ACC, _ => OAcc
  | _, _ => ONone
  end.

(** the text of an operand field in words *)
Lemma lexes_field : forall md bs f off, field md bs = Some f -> forallb isbyte bs = true ->
  delimited f /\ exists toks, Lexes literal16 false off f toks /\ Operand (map fst toks) (operand_for md bs).
Proof.
  assert (De : delimited []) by exact I.
  assert (Dc : forall s, delimited (","%char :: s)) by (intro s; right; right; auto).
  assert (Dp : forall s, delimited (")"%char :: s)) by (intro s; right; right; auto).
  assert (Ds : forall s, delimited (ch_sp :: s)) by (intro s; left; left; reflexivity).
  assert (En : forall off, Lexes literal16 false off [] []) by (intro off; apply Lexes_end; exact I).
  assert (WX : word literal16 (T "X") TX) by (apply wordb_ok; vm_compute; reflexivity).
  assert (WY : word literal16 (T "Y") TY) by (apply wordb_ok; vm_compute; reflexivity).
  assert (WA : word literal16 (T "A") TA) by (apply wordb_ok; vm_compute; reflexivity).
  assert (Bl : blank ch_sp) by (left; reflexivity).
  assert (Pc : punct ","%char TComma) by (unfold punct; auto). assert (Pe : punct ")"%char TClose) by (unfold punct; auto).
  assert (Po : punct "("%char TOpen) by (unfold punct; auto). assert (Ph : punct "#"%char THash) by (unfold punct; auto).
  intros md bs f off H B.
  destruct md, bs as [|b [|h [|? ?]]]; cbn [field] in H; try discriminate; injection H as <-;
    cbn [forallb] in B; rewrite ?andb_true_iff in B; cbn [operand_for];
    [ apply proj1, word2 in B | apply proj1, word2 in B | apply proj1, word2 in B | apply proj1, word2 in B
    | destruct B as (B & B' & _); pose proof (word4 _ _ B B') as W; clear B B'; rename W into B
    | destruct B as (B & B' & _); pose proof (word4 _ _ B B') as W; clear B B'; rename W into B
    | destruct B as (B & B' & _); pose proof (word4 _ _ B B') as W; clear B B'; rename W into B
    | destruct B as (B & B' & _); pose proof (word4 _ _ B B') as W; clear B B'; rename W into B
    | apply proj1, word2 in B | apply proj1, word2 in B | | | apply proj1, word2 in B ].
  - split; [apply Ds|]. eexists. split.
    + eapply (Lexes_blank _ _ _ ch_sp _ _ Bl). eapply (Lexes_punct _ _ _ "#"%char THash _ _ Ph).
      rewrite <- (app_nil_r (hex2 b)). eapply (Lexes_word _ _ _ (T "$" ++ hex2 b) _ [] []); [exact B|exact De|apply En].
    + cbn. repeat constructor.
  - split; [apply Ds|]. eexists. split.
    + eapply (Lexes_blank _ _ _ ch_sp _ _ Bl). rewrite <- (app_nil_r (hex2 b)). eapply (Lexes_word _ _ _ (T "$" ++ hex2 b) _ [] []); [exact B|exact De|apply En].
    + cbn. repeat constructor.
  - split; [apply Ds|]. eexists. split.
    + eapply (Lexes_blank _ _ _ ch_sp _ _ Bl). eapply (Lexes_word _ _ _ (T "$" ++ hex2 b) _ (T ",X")); [exact B|apply Dc|].
      eapply (Lexes_punct _ _ _ ","%char TComma _ _ Pc). eapply (Lexes_word _ _ _ (T "X") TX []); [exact WX|exact De|apply En].
    + cbn. repeat constructor.
  - split; [apply Ds|]. eexists. split.
    + eapply (Lexes_blank _ _ _ ch_sp _ _ Bl). eapply (Lexes_word _ _ _ (T "$" ++ hex2 b) _ (T ",Y")); [exact B|apply Dc|].
      eapply (Lexes_punct _ _ _ ","%char TComma _ _ Pc). eapply (Lexes_word _ _ _ (T "Y") TY []); [exact WY|exact De|apply En].
    + cbn. repeat constructor.
  - split; [apply Ds|]. eexists. split.
    + eapply (Lexes_blank _ _ _ ch_sp _ _ Bl). rewrite <- (app_nil_r (hex4 b h)). eapply (Lexes_word _ _ _ (T "$" ++ hex4 b h) _ [] []); [exact B|exact De|apply En].
    + cbn. repeat constructor.
  - split; [apply Ds|]. eexists. split.
    + eapply (Lexes_blank _ _ _ ch_sp _ _ Bl). eapply (Lexes_word _ _ _ (T "$" ++ hex4 b h) _ (T ",X")); [exact B|apply Dc|].
      eapply (Lexes_punct _ _ _ ","%char TComma _ _ Pc). eapply (Lexes_word _ _ _ (T "X") TX []); [exact WX|exact De|apply En].
    + cbn. repeat constructor.
  - split; [apply Ds|]. eexists. split.
    + eapply (Lexes_blank _ _ _ ch_sp _ _ Bl). eapply (Lexes_word _ _ _ (T "$" ++ hex4 b h) _ (T ",Y")); [exact B|apply Dc|].
      eapply (Lexes_punct _ _ _ ","%char TComma _ _ Pc). eapply (Lexes_word _ _ _ (T "Y") TY []); [exact WY|exact De|apply En].
    + cbn. repeat constructor.
  - split; [apply Ds|]. eexists. split.
    + eapply (Lexes_blank _ _ _ ch_sp _ _ Bl). eapply (Lexes_punct _ _ _ "("%char TOpen _ _ Po).
      eapply (Lexes_word _ _ _ (T "$" ++ hex4 b h) _ (T ")")); [exact B|apply Dp|]. eapply (Lexes_punct _ _ _ ")"%char TClose _ _ Pe). apply En.
    + cbn. repeat constructor.
  - split; [apply Ds|]. eexists. split.
    + eapply (Lexes_blank _ _ _ ch_sp _ _ Bl). eapply (Lexes_punct _ _ _ "("%char TOpen _ _ Po).
      eapply (Lexes_word _ _ _ (T "$" ++ hex2 b) _ (T ",X)")); [exact B|apply Dc|].
      eapply (Lexes_punct _ _ _ ","%char TComma _ _ Pc). eapply (Lexes_word _ _ _ (T "X") TX (T ")")); [exact WX|apply Dp|].
      eapply (Lexes_punct _ _ _ ")"%char TClose _ _ Pe). apply En.
    + cbn. repeat constructor.
  - split; [apply Ds|]. eexists. split.
    + eapply (Lexes_blank _ _ _ ch_sp _ _ Bl). eapply (Lexes_punct _ _ _ "("%char TOpen _ _ Po).
      eapply (Lexes_word _ _ _ (T "$" ++ hex2 b) _ (T "),Y")); [exact B|apply Dp|].
      eapply (Lexes_punct _ _ _ ")"%char TClose _ _ Pe). eapply (Lexes_punct _ _ _ ","%char TComma _ _ Pc).
      eapply (Lexes_word _ _ _ (T "Y") TY []); [exact WY|exact De|apply En].
    + cbn. repeat constructor.
  - split; [apply Ds|]. eexists. split.
    + eapply (Lexes_blank _ _ _ ch_sp _ _ Bl). eapply (Lexes_word _ _ _ (T "A") TA []); [exact WA|exact De|apply En].
    + cbn. repeat constructor.
  - split; [exact De|]. exists []. split; [apply En|constructor].
  - split; [apply Ds|]. eexists. split.
    + eapply (Lexes_blank _ _ _ ch_sp _ _ Bl). rewrite <- (app_nil_r (hex2 b)). eapply (Lexes_word _ _ _ (T "$" ++ hex2 b) _ [] []); [exact B|exact De|apply En].
    + cbn. repeat constructor.
Qed.

Lemma field_length : forall md bs f, field md bs = Some f -> (List.length f <= 8)%nat /\ Z.of_nat (List.length bs) = operand_bytes md.
Proof.
  intros md bs f H. destruct md, bs as [|b [|h [|? ?]]]; cbn [field] in H; try discriminate; injection H as <-; cbn; lia.
Qed.

Lemma field_line : forall md bs f, field md bs = Some f -> forallb isbyte bs = true -> ~ In ch_nl f.
Proof.
  intros md bs f H B. destruct md, bs as [|b [|h [|? ?]]]; cbn [field] in H; try discriminate; injection H as <-;
    cbn [forallb] in B; rewrite ?andb_true_iff in B; unfold hex4, hex2; cbn [app];
    repeat match goal with H : _ /\ _ |- _ => destruct H end;
    repeat match goal with H : isbyte _ = true |- _ => apply byte_digits in H; destruct H as (? & ? & _) end;
    intro J; repeat (destruct J as [J|J]; [first [discriminate J | match type of J with hex1 ?d = _ => assert (0 <= d < 16) as Q by assumption; exact (hex1_line d Q J) end]|]); exact J.
Qed.

(** a line of the disassembler *)
Theorem line_listing : forall op bs line m md n, decode op = Some (m, md, n) -> instruction_line op bs = Some line ->
  line_means line (SInstr None m (operand_for md bs)) /\ fits line /\ (List.length line <= 11)%nat /\
  n = 1 + Z.of_nat (List.length bs) /\ forallb isbyte bs = true /\ unwritable m md bs = false.
Proof.
  intros op bs line m md n D H. pose proof (decode_row _ _ _ _ D) as R. unfold instruction_line in H. rewrite D in H.
  destruct (unwritable m md bs) eqn:U; [discriminate|]. destruct (forallb isbyte bs) eqn:B; [|discriminate]. cbn [orb negb] in H.
  destruct (field md bs) as [f|] eqn:F; [|discriminate]. cbn [option_map] in H. injection H as <-.
  destruct (field_length _ _ _ F) as [L1 L2]. pose proof (r_length _ _ _ _ R) as L3.
  destruct (lexes_field md bs f (0 + List.length (T m)) F B) as (Dl & toks & Lx & Op).
  split; [|split; [|split; [|split; [|auto]]]].
  - exists ((TMnemonic m, 0%nat) :: toks). split.
    + apply (Lexes_word _ true 0 (T m)); [apply (r_word _ _ _ _ R)|exact Dl|exact Lx].
    + cbn [map fst]. constructor. exact Op.
  - split; [rewrite app_length; lia|]. intro J. apply in_app_or in J. destruct J as [J|J]; [exact (r_line _ _ _ _ R J)|].
    exact (field_line _ _ _ F B J).
  - rewrite app_length. lia.
  - rewrite (r_size _ _ _ _ R). lia.
Qed.

(** ... and what the reference assembler makes of it *)
Theorem assembles_listing : forall op bs line m md n, decode op = Some (m, md, n) -> instruction_line op bs = Some line ->
  forall st, exists it, pass1_instr AsBuilt st m (operand_for md bs) = Some (mkP1 (p1_addr st + n) (p1_env st) (p1_items st ++ [it])) /\
    it_addr it = p1_addr st /\ it_opcode it = op /\ forall e, encode_operand AsBuilt e it = Some bs.
Proof.
  intros op bs line m md n D H st. pose proof (decode_row _ _ _ _ D) as R.
  destruct (line_listing _ _ _ _ _ _ D H) as (_ & _ & _ & Hn & B & U).
  assert (S : Z.of_nat (List.length bs) = operand_bytes md) by (pose proof (r_size _ _ _ _ R); lia).
  unfold pass1_instr.
  assert (Q : denoted_mode m (operand_for md bs) (match operand_expr (operand_for md bs) with Some x => eval (p1_env st) x | None => None end) = Some md).
  { unfold denoted_mode. rewrite (r_branch _ _ _ _ R). destruct (mode_eqb md REL) eqn:ER.
    { apply mode_eqb_eq in ER. subst md. destruct bs as [|b [|? ?]]; try discriminate S; [reflexivity|]. cbn in S. lia. }
    destruct (is_jump_name m) eqn:EJ.
    { destruct (r_jump_mode _ _ _ _ R EJ) as [-> | ->]; destruct bs as [|b [|h [|? ?]]]; cbn in S; try lia; reflexivity. }
    destruct md; destruct bs as [|b [|h [|? ?]]]; cbn [List.length operand_bytes] in S; try lia;
      cbn [operand_for operand_expr eval forallb] in *; rewrite ?andb_true_iff in B;
      repeat match goal with H : _ /\ _ |- _ => destruct H end;
      repeat match goal with H : isbyte ?b = true |- _ => apply byte_digits in H; destruct H as (_ & _ & H) end;
      unfold by_size;
      try (rewrite (proj2 (Z.leb_le _ 255)) by lia; reflexivity);
      try (pose proof (r_acc _ _ _ _ R eq_refl); reflexivity);
      try (pose proof (r_imp _ _ _ _ R eq_refl) as X; unfold shiftb in X; rewrite X; reflexivity);
      try (pose proof (r_ind _ _ _ _ R eq_refl) as X; rewrite X in EJ; discriminate);
      try discriminate ER;
      try (unfold unwritable in U; rewrite (r_jump _ _ _ _ R), EJ in U; cbn [absolute andb negb] in U; apply Z.eqb_neq in U;
           match goal with |- context[if ?x <=? 255 then _ else _] => rewrite (proj2 (Z.leb_gt x 255)) by lia end; reflexivity). }
  rewrite Q. unfold has_mode. rewrite (r_listed _ _ _ _ R).
  eexists. split; [reflexivity|]. cbn [it_addr it_opcode]. split; [reflexivity|]. split; [reflexivity|].
  intro e. unfold encode_operand. cbn [it_expr it_mode].
  destruct md; destruct bs as [|b [|h [|? ?]]]; cbn [List.length operand_bytes] in S; try lia;
    cbn [operand_for operand_expr eval forallb] in *; rewrite ?andb_true_iff in B;
    repeat match goal with H : _ /\ _ |- _ => destruct H end;
    repeat match goal with H : isbyte ?b = true |- _ => apply byte_digits in H; destruct H as (_ & _ & H) end;
    unfold lo, hi; try reflexivity;
    try (rewrite (proj2 (Z.leb_le _ 255)) by lia; reflexivity);
    try (rewrite Z.mod_small by lia; reflexivity);
    try (do 2 f_equal; [|f_equal];
         [rewrite (Z.mul_comm 256), Z.mod_add, Z.mod_small by lia; reflexivity
         |rewrite (Z.mul_comm 256), Z.div_add, Z.div_small, Z.add_0_l, Z.mod_small by lia; reflexivity]).
Qed.
