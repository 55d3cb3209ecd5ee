(** Prop_Write.v -- C89: every program can be written down, and formatting a source does not change the result. *)
From Verif Require Import Base Proof_Base Model_Main Spec_Isa Spec_Text Spec_Asm Spec_Diag Spec_Prog Spec_Report Spec_Alike Spec_Listing Spec_Write
  Proof_Chars Proof_Lex1 Proof_Lex2 Proof_Fun Proof_Sim2 Proof_Listing Proof_Check Prop_Same.

Definition tok_ok (t : tok) : Prop :=
  match t with TLabel n => legal_name n | TMnemonic m => is_name m | TNumber v => 0 <= v <= 0xFFFF | _ => True end.

(** ** the mnemonics *)
Definition capital (c : ascii) : bool := (65 <=? code c) && (code c <=? 90).
Definition three (n : string) : bool := match T n with [a; b; c] => capital a && capital b && capital c | _ => false end.
Lemma table_three : forallb (fun '(n, _, _, _) => three n) table = true.
Proof. vm_compute. reflexivity. Qed.

Lemma capital_letter : forall c, capital c = true -> letter c /\ upper c = c.
Proof.
  intros c H. apply andb_true_iff in H. destruct H as [A B]. apply Z.leb_le in A. apply Z.leb_le in B. split; [left; lia|].
  unfold upper. destruct (Z.leb_spec 97 (code c)); [lia|reflexivity].
Qed.

Lemma name_shape : forall m, is_name m -> exists a b c, T m = [a; b; c] /\ capital a = true /\ capital b = true /\ capital c = true.
Proof.
  intros m (md & op & k & I). pose proof table_three as H. rewrite forallb_forall in H. specialize (H _ I). cbn beta iota in H.
  unfold three in H. destruct (T m) as [|a [|b [|c [|d l]]]]; try discriminate. apply andb_true_iff in H. destruct H as [H K].
  apply andb_true_iff in H. destruct H as [H J]. exists a, b, c. auto.
Qed.

Lemma name_word : forall lit m, is_name m -> word lit (T m) (TMnemonic m).
Proof.
  intros lit m N. destruct (name_shape m N) as (a & b & c & E & A & B & C). apply capital_letter in A, B, C.
  apply word_ident.
  - rewrite E. exists a, [b; c]. split; [reflexivity|]. split; [apply A|]. apply Forall_cons; [left; apply B|]. apply Forall_cons; [left; apply C|apply Forall_nil].
  - rewrite E. cbn. lia.
  - apply means_mnemonic; [exact N|]. rewrite E. cbn [map]. destruct A as [_ ->], B as [_ ->], C as [_ ->]. reflexivity.
Qed.

(** ** numbers *)
Lemma number_word : forall v, 0 <= v <= 0xFFFF -> word literal16 (spell (TNumber v)) (TNumber v).
Proof.
  intros v H. cbn [spell]. unfold hex4, hex2. cbn [app].
  assert (0 <= v / 256 < 256) as H1 by (split; [apply Z.div_pos; lia|apply Z.div_lt_upper_bound; lia]).
  assert (0 <= v mod 256 < 256) as H2 by (apply Z.mod_pos_bound; lia).
  assert (HD : forall b, 0 <= b < 256 -> 0 <= b / 16 < 16 /\ 0 <= b mod 16 < 16).
  { intros b K. split; [split; [apply Z.div_pos; lia|apply Z.div_lt_upper_bound; lia]|apply Z.mod_pos_bound; lia]. }
  destruct (HD _ H1) as [A B]. destruct (HD _ H2) as [C D].
  apply word_numeral with (n := v); [|split; [reflexivity|lia]].
  exists Hex. eexists. split; [reflexivity|].
  replace v with (v / 256 / 16 * radix Hex ^ Z.of_nat 3 + ((v / 256) mod 16 * radix Hex ^ Z.of_nat 2 + ((v mod 256) / 16 * radix Hex ^ Z.of_nat 1 + v mod 256 mod 16))) at 5.
  - apply (number_more _ _ _ [_; _; _]); [apply hex1_digit; exact A|]. apply (number_more _ _ _ [_; _]); [apply hex1_digit; exact B|].
    apply (number_more _ _ _ [_]); [apply hex1_digit; exact C|]. apply number_one, hex1_digit. exact D.
  - change (radix Hex ^ Z.of_nat 3) with 4096. change (radix Hex ^ Z.of_nat 2) with 256. change (radix Hex ^ Z.of_nat 1) with 16.
    pose proof (Z.div_mod v 256). pose proof (Z.div_mod (v / 256) 16). pose proof (Z.div_mod (v mod 256) 16). lia.
Qed.

Lemma spell_word : forall t, tok_ok t -> is_word t = true -> word literal16 (spell t) t.
Proof.
  intros [n|m|v| | | | | | | | | |[| | |]] K W; try discriminate; cbn [spell].
  - destruct K as (I & L & U & M & X & Y & A). apply word_ident; auto. replace (TLabel n) with (TLabel (map upper n)) by (rewrite U; reflexivity).
    apply means_label; rewrite U; auto.
  - apply name_word. exact K.
  - apply number_word. exact K.
  - apply word_ident; [exists "X"%char, []; split; [reflexivity|]; split; [left; vm_compute; split; discriminate|constructor]|cbn; lia|apply means_x; reflexivity].
  - apply word_ident; [exists "Y"%char, []; split; [reflexivity|]; split; [left; vm_compute; split; discriminate|constructor]|cbn; lia|apply means_y; reflexivity].
  - apply word_ident; [exists "A"%char, []; split; [reflexivity|]; split; [left; vm_compute; split; discriminate|constructor]|cbn; lia|apply means_a; reflexivity].
  - apply word_directive, means_define. reflexivity.
  - apply word_directive, means_equ. reflexivity.
  - apply word_directive, means_org. reflexivity.
  - apply word_directive, means_end. reflexivity.
Qed.

Lemma spell_punct : forall t, is_word t = false -> exists c, spell t = [c] /\ punct c t.
Proof.
  intros [n|m|v| | | | | | | | | |d] W; try discriminate; cbn [spell T]; eexists; (split; [reflexivity|]); unfold punct; auto 7.
Qed.

Lemma gap_delimited : forall t ts, is_word t = true -> delimited (gap t ts ++ spelled ts).
Proof.
  intros t [|t' ts] W; [exact I|]. cbn [gap]. rewrite W. cbn [andb].
  destruct t'; cbn [tight negb app spelled spell T]; (left; left; reflexivity) || (right; right; auto) || idtac.
Qed.

Lemma lexes_spelled : forall ts, Forall tok_ok ts -> forall first off, exists l, map fst l = ts /\ Lexes literal16 first off (spelled ts) l.
Proof.
  intros ts F. induction F as [|t ts K F IH]; intros first off.
  - exists []. split; [reflexivity|]. apply Lexes_end. exact I.
  - assert (G : forall off', exists l, map fst l = ts /\ Lexes literal16 false off' (gap t ts ++ spelled ts) l).
    { intro off'. unfold gap. destruct ts as [|t' ts]; [apply IH|]. destruct (is_word t && negb (tight t')); [|apply IH].
      destruct (IH false (S off')) as (l & E & L). exists l. split; [exact E|]. cbn [app]. apply Lexes_blank; [left; reflexivity|exact L]. }
    cbn [spelled]. destruct (is_word t) eqn:W.
    + destruct (G (off + List.length (spell t))%nat) as (l & E & L). exists ((t, off) :: l). split; [cbn [map fst]; rewrite E; reflexivity|].
      apply Lexes_word; [apply spell_word; assumption|apply gap_delimited; exact W|exact L].
    + destruct (spell_punct t W) as (c & -> & P). destruct (G (S off)) as (l & E & L). exists ((t, off) :: l).
      split; [cbn [map fst]; rewrite E; reflexivity|]. cbn [app]. apply Lexes_punct; assumption.
Qed.

(** ** a statement is written as itself *)
Lemma Expr_tok : forall e, Expr (expr_tok e) e.
Proof. intros [v|n]; constructor. Qed.

Lemma Operand_toks : forall o, Operand (operand_toks o) o.
Proof. intros []; cbn [operand_toks]; constructor; apply Expr_tok. Qed.

Lemma Line_toks : forall s, Line (stmt_toks s) s.
Proof.
  intros [|n|n v|v| |[n|] m o]; cbn [stmt_toks app].
  - apply Line_empty.
  - apply Line_label.
  - apply Line_equal.
  - apply Line_org.
  - apply Line_end.
  - apply Line_label_instr, Operand_toks.
  - apply Line_instr, Operand_toks.
Qed.

Lemma legal_toks : forall s, legal s -> Forall tok_ok (stmt_toks s).
Proof.
  intros s (_ & H).
  assert (HE : forall e, legal_expr e -> tok_ok (expr_tok e)) by (intros [v|n] K; exact K).
  assert (HO : forall o, legal_operand o -> Forall tok_ok (operand_toks o)).
  { intros o K. destruct o; cbn [operand_toks legal_operand] in *; repeat (apply Forall_cons; [first [exact I|apply HE, K]|]); apply Forall_nil. }
  destruct s as [|n|n v|v| |lab m o]; cbn [stmt_toks].
  - constructor.
  - constructor; [exact H|constructor].
  - destruct H. constructor; [assumption|]. constructor; [exact I|]. constructor; [assumption|constructor].
  - constructor; [exact I|]. constructor; [exact H|constructor].
  - constructor; [exact I|constructor].
  - destruct H as (A & B & C). apply Forall_app. split; [destruct lab as [n|]; [constructor; [apply A; reflexivity|constructor]|constructor]|].
    constructor; [exact B|apply HO, C].
Qed.

Lemma write_means : forall s, legal s -> line_means (write s) s.
Proof.
  intros s H. destruct (lexes_spelled _ (legal_toks s H) true 0%nat) as (l & E & L). exists l. split; [exact L|]. rewrite E. apply Line_toks.
Qed.

(** no newline in the text *)
Lemma word_newline : forall lit w t, word lit w t -> ~ In ch_nl w.
Proof.
  intros lit w t H I. apply word_plain in H. rewrite Forall_forall in H. destruct (H _ I) as [K _]. apply K. right. left. right. left. reflexivity.
Qed.

Lemma spelled_newline : forall ts, Forall tok_ok ts -> ~ In ch_nl (spelled ts).
Proof.
  intros ts F. induction F as [|t ts K F IH]; [intros []|]. cbn [spelled]. rewrite !in_app_iff. intros [I|[I|I]]; [| |exact (IH I)].
  - destruct (is_word t) eqn:W; [exact (word_newline _ _ _ (spell_word t K W) I)|].
    destruct (spell_punct t W) as (c & E & P). rewrite E in I. destruct I as [-> |[]].
    destruct P as [P|[P|[P|[P|[P|P]]]]]; discriminate.
  - unfold gap in I. destruct ts; [destruct I|]. destruct (_ && _); [|destruct I]. destruct I as [I|[]]. discriminate.
Qed.

Theorem C89_written : forall p, Forall legal p -> program_means (formatted p) p.
Proof.
  intros p F. exists (map write p). split.
  - split; [|left; reflexivity]. apply Forall_forall. intros x I. apply in_map_iff in I. destruct I as (s & <- & I).
    rewrite Forall_forall in F. specialize (F _ I). split; [apply F|]. apply spelled_newline, legal_toks, F.
  - induction F as [|s p H F IH]; cbn [map]; constructor; [apply write_means, H|exact IH].
Qed.

(** ** only legal statements can be written: no spelling is shorter where it matters *)
Lemma word_length : forall lit w t, word lit w t -> (forall v, t <> TNumber v) -> List.length (spell t) = List.length w.
Proof.
  intros lit w t H N. destruct H as [w t I L M|w n v _ _|w d D].
  - destruct M as [E|E|E|m _ E|_ _ _ _]; cbn [spell]; try rewrite <- E; apply map_length.
  - destruct (N v). reflexivity.
  - destruct D as [E|E|E|E]; cbn [spell]; rewrite <- E; apply map_length.
Qed.

Lemma word_start : forall lit w t, word lit w t -> exists c w', w = c :: w' /\ plain c.
Proof.
  intros lit w t H. pose proof (word_plain _ _ _ H) as F. destruct w as [|c w]; [|inversion F; subst; eauto].
  exfalso. inversion H; subst.
  - match goal with X : ident [] |- _ => destruct X as (? & ? & X & _); discriminate X end.
  - match goal with X : numeral [] _ |- _ => destruct X as (b & ds & X & Y) end. destruct b; cbn [prefix app] in *; try discriminate. subst. inversion Y.
  - match goal with X : directive_means [] _ |- _ => destruct X; discriminate end.
Qed.

Lemma delimiter_next : forall lit first off s l c s', Lexes lit first off s l -> s = c :: s' -> delimiter c ->
  blank c \/ l = [] \/ exists t p l', l = (t, p) :: l' /\ tight t = true.
Proof.
  intros lit first off s l c s' H E D. destruct H as [|first off b s l B H|first off b t s l P H|first off w t s l W _ H|off w n s l W H].
  - auto.
  - injection E as -> ->. auto.
  - injection E as -> ->. destruct P as [P|[P|[P|[P|[P|P]]]]]; injection P as -> ->;
      try (right; right; do 3 eexists; split; reflexivity); exfalso;
      destruct D as [[D|D]|[[D|[D|[D|[D|D]]]]|[D|[D|D]]]]; discriminate.
  - exfalso. destruct (word_start _ _ _ W) as (x & w' & -> & [K _]). injection E as -> _. exact (K D).
  - exfalso. destruct (word_start _ _ _ W) as (x & w' & -> & [K _]). injection E as -> _. exact (K D).
Qed.

Definition blank_first (s : text) : nat := match s with c :: _ => if Ascii.eqb c ch_sp || Ascii.eqb c ch_tab then 1 else 0 | [] => 0 end.

Lemma blank_first_blank : forall c s, blank c -> blank_first (c :: s) = 1%nat.
Proof. intros c s [-> | ->]; reflexivity. Qed.

Lemma blank_first_not : forall c s, ~ delimiter c -> blank_first (c :: s) = 0%nat.
Proof.
  intros c s K. unfold blank_first. destruct (Ascii.eqb_spec c ch_sp) as [-> |]; [destruct K; left; left; reflexivity|].
  destruct (Ascii.eqb_spec c ch_tab) as [-> |]; [destruct K; left; right; reflexivity|reflexivity].
Qed.

Lemma punct_blank : forall c t s, punct c t -> blank_first (c :: s) = 0%nat /\ List.length (spell t) = 1%nat /\ is_word t = false.
Proof. intros c t s [P|[P|[P|[P|[P|P]]]]]; injection P as -> ->; repeat split; reflexivity. Qed.

Lemma lexes_length : forall lit first off s l, Lexes lit first off s l -> (forall v, ~ In (TNumber v) (map fst l)) ->
  (List.length (spelled (map fst l)) + blank_first s <= List.length s)%nat.
Proof.
  intros lit first off s l H.
  induction H as [first off s E|first off c s l B H IH|first off c t s l P H IH|first off w t s l W D H IH|off w n s l W H IH]; intro N; cbn [map fst] in *.
  - cbn [spelled List.length]. destruct s as [|c s]; cbn [blank_first List.length]; [lia|]. destruct (_ || _); lia.
  - specialize (IH N). rewrite blank_first_blank by exact B. cbn [List.length]. lia.
  - assert (N' : forall v, ~ In (TNumber v) (map fst l)) by (intros v I; apply (N v); right; exact I). specialize (IH N').
    destruct (punct_blank c t s P) as (-> & L & Wd). cbn [spelled List.length]. rewrite !app_length, L.
    assert (List.length (gap t (map fst l)) = 0%nat) as -> by (unfold gap; destruct (map fst l); [reflexivity|rewrite Wd; reflexivity]). lia.
  - assert (N' : forall v, ~ In (TNumber v) (map fst l)) by (intros v I; apply (N v); right; exact I). specialize (IH N').
    cbn [spelled]. rewrite !app_length, (word_length _ _ _ W) by (intros v ->; apply (N v); left; reflexivity).
    destruct (word_start _ _ _ W) as (x & w' & -> & [K _]). cbn [app]. rewrite blank_first_not by exact K. cbn [List.length].
    assert (List.length (gap t (map fst l)) <= blank_first s)%nat; [|lia].
    unfold gap. destruct (map fst l) as [|t' ts] eqn:El; [cbn; lia|]. destruct (is_word t && negb (tight t')) eqn:G; [|cbn; lia].
    destruct s as [|c s]; [inversion H; subst; try discriminate; match goal with X : _ ++ _ = [] |- _ => apply app_eq_nil in X; destruct X; subst end;
      match goal with X : word _ [] _ |- _ => destruct (word_start _ _ _ X) as (? & ? & X' & _); discriminate X' | _ => discriminate end|].
    destruct (delimiter_next _ _ _ _ _ _ _ H eq_refl D) as [B|[-> |(t2 & p & l' & -> & Q)]].
    + rewrite blank_first_blank by exact B. cbn. lia.
    + discriminate.
    + cbn [map fst] in El. injection El as -> _. rewrite Q in G. apply andb_true_iff in G. destruct G; discriminate.
  - assert (N' : forall v, ~ In (TNumber v) (map fst l)) by (intros v I; apply (N v); right; exact I). specialize (IH N').
    cbn [spelled]. rewrite !app_length, (word_length _ _ _ W) by discriminate.
    destruct (word_start _ _ _ W) as (x & w' & -> & [K _]). cbn [app]. rewrite blank_first_not by exact K. cbn [List.length].
    assert (List.length (gap (TLabel n) (map fst l)) <= 1)%nat by (unfold gap; destruct (map fst l); cbn; [lia|]; destruct (negb _); cbn; lia). lia.
Qed.

Lemma upper_word_char : forall c, word_char c -> word_char (upper c).
Proof.
  intros c [L|[D| ->]]; [left; apply upper_letter; exact L| |right; right; reflexivity].
  right. left. unfold upper. destruct (Z.leb_spec 97 (code c)); [unfold digit in D; lia|exact D].
Qed.

Lemma word_label : forall lit w n, word lit w (TLabel n) -> legal_name n.
Proof.
  intros lit w n H. inversion H as [w' t I L M|w' k v Hn Hl|w' d Hd]; subst. inversion M as [| | | |M1 M2 M3 M4 E]; subst.
  destruct I as (c & cs & -> & Lc & F). split.
  { exists (upper c), (map upper cs). split; [reflexivity|]. split; [apply upper_letter, Lc|]. apply Forall_map. eapply Forall_impl; [|exact F].
    intros a Ka. apply upper_word_char, Ka. }
  split; [rewrite map_length; exact L|]. split; [rewrite map_map; apply map_ext; intro a; apply upper_idem|]. auto.
Qed.

Lemma lexes_labels : forall lit first off s l, Lexes lit first off s l -> forall n, In (TLabel n) (map fst l) -> legal_name n.
Proof.
  intros lit first off s l H.
  induction H as [first off s E|first off c s l B H IH|first off c t s l P H IH|first off w t s l W D H IH|off w m s l W H IH]; intros n I; cbn [map fst] in I.
  - destruct I.
  - apply IH, I.
  - destruct I as [-> |I]; [|apply IH, I]. destruct P as [P|[P|[P|[P|[P|P]]]]]; discriminate.
  - destruct I as [-> |I]; [|apply IH, I]. eapply word_label; eauto.
  - destruct I as [E|I]; [|apply IH, I]. injection E as ->. eapply word_label; eauto.
Qed.

Lemma name_length : forall m, is_name m -> List.length (T m) = 3%nat.
Proof. intros m H. destruct (name_shape m H) as (a & b & c & -> & _). reflexivity. Qed.

Lemma gap_length : forall t ts, (List.length (gap t ts) <= 1)%nat.
Proof. intros t [|t' ts]; cbn [gap]; [cbn; lia|]. destruct (_ && _); cbn; lia. Qed.

(** a list of tokens is no longer than its words, with a blank after each *)
Lemma spelled_length : forall ts, (List.length (spelled ts) <= fold_right (fun t n => List.length (spell t) + 1 + n) 0 ts)%nat.
Proof.
  induction ts as [|t ts IH]; cbn [spelled fold_right]; [cbn; lia|]. rewrite !app_length. pose proof (gap_length t ts). lia.
Qed.

Lemma meaning_legal : forall line s, (List.length line <= 126)%nat -> line_means line s -> legal s.
Proof.
  intros line s HL (l & L & HS).
  pose proof (lexes_labels _ _ _ _ _ L) as Nm. pose proof (Lexes_named _ _ _ _ _ L) as Mn.
  assert (Nu : forall v, In (TNumber v) (map fst l) -> 0 <= v <= 65535) by (apply (Lexes_numbers _ _ _ _ _ L); intros n v [-> K] K'; lia).
  pose proof (lexes_length _ _ _ _ _ L) as Len.
  assert (Short : forall s, stmt_toks s = map fst l -> (forall v, ~ In (TNumber v) (map fst l)) -> (List.length (write s) <= 126)%nat).
  { intros x E K. specialize (Len K). unfold write. rewrite E. lia. }
  assert (HE : forall t e, Expr t e -> In t (map fst l) -> legal_expr e /\ expr_tok e = t).
  { intros t e K I. destruct K; cbn [legal_expr expr_tok]; split; auto. }
  assert (HO : forall ts o, Operand ts o -> incl ts (map fst l) -> legal_operand o /\ operand_toks o = ts).
  { intros ts o K I. destruct K; cbn [legal_operand operand_toks]; try (split; [exact Logic.I|reflexivity]);
      (match goal with X : Expr ?t ?e |- _ => destruct (HE t e X) as [A B]; [apply I; cbn; auto|rewrite B; split; [exact A|reflexivity]] end). }
  assert (HI : forall ts o lab m, Operand ts o -> map fst l = (match lab with Some n => [TLabel n] | None => [] end) ++ TMnemonic m :: ts ->
    legal (SInstr lab m o)).
  { intros ts o lab m K E. rewrite E in *.
    assert (legal_operand o /\ operand_toks o = ts) as [Lo Et] by (apply HO; [exact K|intros x I; apply in_or_app; right; right; exact I]).
    assert (Ln : forall n, lab = Some n -> legal_name n) by (intros n ->; apply Nm; left; reflexivity).
    assert (Lm : is_name m) by (apply Mn; apply in_or_app; right; left; reflexivity).
    split; [|auto].
    assert (Cases : (exists v, operand_expr o = Some (Num v)) \/ forall v, operand_expr o <> Some (Num v)).
    { destruct (operand_expr o) as [[v|n]|]; [left; eauto|right; discriminate|right; discriminate]. }
    destruct Cases as [(v & Ev)|Nv].
    - unfold write. eapply Nat.le_trans; [apply spelled_length|]. cbn [stmt_toks]. pose proof (name_length m Lm) as L3.
      assert (Lab : (List.length (match lab with Some n => n | None => [] end) <= 63)%nat) by (destruct lab as [n|]; [apply (Ln n eq_refl)|cbn; lia]).
      destruct lab as [n|]; cbn [app fold_right spell] in *; rewrite L3; destruct o; try discriminate; cbn [operand_expr] in Ev; injection Ev as ->;
        cbn [operand_toks expr_tok fold_right spell]; unfold hex4, hex2; cbn; lia.
    - apply Short; [cbn [stmt_toks]; rewrite Et; reflexivity|]. intros v I. apply in_app_or in I. destruct I as [I|[I|I]].
      + destruct lab; cbn in I; intuition discriminate.
      + discriminate.
      + rewrite <- Et in I. destruct o as [| |e|e|e|e|e|e|e]; cbn [operand_toks operand_expr] in *; try (cbn in I; intuition discriminate);
          destruct e as [w|n]; try (eapply Nv; reflexivity); cbn in I; intuition discriminate. }
  inversion HS as [E E2|m ts o K E E2|n m ts o K E E2|n E E2|n v E E2|n v E E2|n v E E2|v E E2|v E E2|E E2]; subst.
  - split; [cbn; lia|exact Logic.I].
  - apply (HI ts o None m K). symmetry. exact E.
  - apply (HI ts o (Some n) m K). symmetry. exact E.
  - assert (legal_name n) by (apply Nm; rewrite <- E; left; reflexivity). split; [|assumption].
    unfold write. cbn. rewrite app_nil_r. destruct H as (_ & H & _). lia.
  - assert (legal_name n) by (apply Nm; rewrite <- E; left; reflexivity). assert (0 <= v <= 65535) by (apply Nu; rewrite <- E; right; right; left; reflexivity).
    split; [|auto]. unfold write. eapply Nat.le_trans; [apply spelled_length|]. destruct H as (_ & H & _). cbn. lia.
  - assert (legal_name n) by (apply Nm; rewrite <- E; left; reflexivity). assert (0 <= v <= 65535) by (apply Nu; rewrite <- E; right; right; left; reflexivity).
    split; [|auto]. unfold write. eapply Nat.le_trans; [apply spelled_length|]. destruct H as (_ & H & _). cbn. lia.
  - assert (legal_name n) by (apply Nm; rewrite <- E; right; left; reflexivity). assert (0 <= v <= 65535) by (apply Nu; rewrite <- E; right; right; left; reflexivity).
    split; [|auto]. unfold write. eapply Nat.le_trans; [apply spelled_length|]. destruct H as (_ & H & _). cbn. lia.
  - assert (0 <= v <= 65535) by (apply Nu; rewrite <- E; right; left; reflexivity).
    split; [|auto]. unfold write. eapply Nat.le_trans; [apply spelled_length|]. cbn. lia.
  - assert (0 <= v <= 65535) by (apply Nu; rewrite <- E; right; right; left; reflexivity).
    split; [|auto]. unfold write. eapply Nat.le_trans; [apply spelled_length|]. cbn. lia.
  - split; [cbn; lia|exact Logic.I].
Qed.

(** the programs that can be written are exactly the legal ones *)
Theorem C89_exact : forall p, (exists src, program_means src p) <-> Forall legal p.
Proof.
  intro p. split; [|intro F; exists (formatted p); apply C89_written, F].
  intros (src & lines & (F & _) & M). clear - F M. induction M as [|line s lines p H M IH]; [constructor|].
  inversion F as [|x y [A _] F']; subst. constructor; [eapply meaning_legal; eauto|apply IH, F'].
Qed.

(** formatting a source changes nothing *)
Theorem C89_format : forall file src p, program_means src p -> small src -> small (formatted p) ->
  same_result file (gaia file src) (gaia file (formatted p)).
Proof.
  intros file src p HM B B'. assert (F : Forall legal p) by (apply C89_exact; eauto). destruct HM as (lines & S & M).
  destruct (C89_written p F) as (lines' & S' & M').
  eapply C31_spellings; eauto. clear - M M'. revert lines' M'. induction M as [|line s lines p H M IH]; intros lines' M'; inversion M'; subst; constructor.
  - left. exists s, s. repeat split; auto. constructor.
  - apply IH; assumption.
Qed.

(** ** a source means one program *)
Lemma first_newline : forall a b x y, ~ In ch_nl a -> ~ In ch_nl b -> a ++ ch_nl :: x = b ++ ch_nl :: y -> a = b /\ x = y.
Proof.
  induction a as [|c a IH]; intros [|d b] x y A B E; cbn [app] in E.
  - injection E as E. auto.
  - injection E as <- _. destruct B. left. reflexivity.
  - injection E as -> _. destruct A. left. reflexivity.
  - injection E as <- E. destruct (IH b x y) as [-> ->]; auto; [intro I; apply A; right; exact I|intro I; apply B; right; exact I].
Qed.

Lemma source_cons : forall l ls src, source_of (l :: ls) src ->
  ~ In ch_nl l /\ ((exists rest, src = l ++ ch_nl :: rest /\ source_of ls rest) \/ (ls = [] /\ src = l /\ l <> [])).
Proof.
  intros l ls src (F & S). inversion F as [|x y [_ N] F']; subst. split; [exact N|]. destruct S as [-> |(front & last & E & NE & ->)].
  - left. exists (join ls). split; [unfold join; cbn [map List.concat]; rewrite <- app_assoc; reflexivity|]. split; [exact F'|left; reflexivity].
  - destruct front as [|f front]; cbn [app] in E; injection E as -> ->.
    + right. split; [reflexivity|]. split; [reflexivity|exact NE].
    + left. exists (join front ++ last). split; [unfold join; cbn [map List.concat]; rewrite <- !app_assoc; reflexivity|].
      split; [exact F'|]. right. exists front, last. auto.
Qed.

Lemma source_nil : forall src, source_of [] src -> src = [].
Proof. intros src (_ & [-> |(front & last & E & _)]); [reflexivity|]. destruct front; discriminate. Qed.

Lemma source_lines : forall ls ls' src, source_of ls src -> source_of ls' src -> ls = ls'.
Proof.
  induction ls as [|l ls IH]; intros [|l' ls'] src S S'.
  - reflexivity.
  - apply source_nil in S. subst src. destruct (source_cons _ _ _ S') as [_ [(rest & E & _)|(_ & <- & NE)]]; [destruct l'; discriminate|congruence].
  - apply source_nil in S'. subst src. destruct (source_cons _ _ _ S) as [_ [(rest & E & _)|(_ & <- & NE)]]; [destruct l; discriminate|congruence].
  - destruct (source_cons _ _ _ S) as [N [(rest & -> & K)|(-> & -> & NE)]], (source_cons _ _ _ S') as [N' [(rest' & E & K')|(-> & E & NE')]].
    + destruct (first_newline _ _ _ _ N N' E) as [-> ->]. f_equal. eapply IH; eauto.
    + subst l'. destruct N'. apply in_or_app. right. left. reflexivity.
    + subst l. destruct N. apply in_or_app. right. left. reflexivity.
    + subst l'. reflexivity.
Qed.

Theorem C89_one_meaning : forall src p p', program_means src p -> program_means src p' -> p = p'.
Proof.
  intros src p p' (ls & S & M) (ls' & S' & M'). assert (ls' = ls) as -> by (eapply source_lines; eauto). clear - M M'.
  revert p' M'. induction M as [|line s lines p H M IH]; intros p' M'; inversion M'; subst; f_equal; [eapply line_means_fun; eauto|apply IH; assumption].
Qed.

(** ** Cases *)
Definition write_program : list stmt :=
  [SConst (T "PTR") 0x20; SOrg 0x300; SInstr (Some (T "LOOP_1")) "LDA" (OIndY (Lab (T "PTR"))); SInstr None "ASL" OAcc;
   SInstr None "BNE" (ODir (Lab (T "LOOP_1"))); SEmpty; SInstr None "RTS" ONone; SEnd].

Lemma legal_check : forall n, (match n with c :: cs => capital c && forallb (fun d => capital d || (Ascii.eqb d "_") || ((48 <=? code d) && (code d <=? 57))) cs | [] => false end
  && (List.length n <=? 63)%nat && forallb (fun '(m, _, _, _) => negb (text_eqb n (T m))) table
  && negb (text_eqb n (T "X")) && negb (text_eqb n (T "Y")) && negb (text_eqb n (T "A"))) = true -> legal_name n.
Proof.
  intros n H. repeat (apply andb_true_iff in H; destruct H as [H ?]).
  assert (Neg : forall t, negb (text_eqb n t) = true -> n <> t).
  { intros t K E. apply negb_true_iff in K. assert (text_eqb n t = true) by (apply text_eqb_eq; exact E). congruence. }
  destruct n as [|c cs]; [discriminate|]. apply andb_true_iff in H. destruct H as [Hc Hs]. rewrite forallb_forall in Hs.
  apply capital_letter in Hc.
  assert (W : forall d, In d cs -> word_char d /\ upper d = d).
  { intros d I. specialize (Hs d I). apply orb_true_iff in Hs. destruct Hs as [Hs|Hs]; [apply orb_true_iff in Hs; destruct Hs as [Hs|Hs]|].
    - apply capital_letter in Hs. split; [left|]; apply Hs.
    - apply Ascii.eqb_eq in Hs. subst d. split; [right; right; reflexivity|reflexivity].
    - apply andb_true_iff in Hs. destruct Hs as [A B]. apply Z.leb_le in A. apply Z.leb_le in B. split; [right; left; split; assumption|].
      unfold upper. destruct (Z.leb_spec 97 (code d)); [lia|reflexivity]. }
  split; [exists c, cs; split; [reflexivity|]; split; [apply Hc|apply Forall_forall; intros d I; apply W, I]|].
  split; [apply Nat.leb_le; assumption|].
  split; [cbn [map]; f_equal; [apply Hc|rewrite <- (map_id cs) at 2; apply map_ext_in; intros d I; apply W, I]|].
  split; [|auto].
  intros m (md & op & k & I). apply Neg. match goal with X : forallb _ table = true |- _ => rewrite forallb_forall in X; specialize (X _ I) end. assumption.
Qed.

Example C89_case : Forall legal write_program /\
  formatted write_program = List.concat (map (fun l => T l ++ [ch_nl])
    ["PTR =$0020"; ".ORG $0300"; "LOOP_1 LDA(PTR),Y"; "ASL A"; "BNE LOOP_1"; ""; "RTS"; ".END"]%string).
Proof.
  assert (P : legal_name (T "PTR")) by (apply legal_check; vm_compute; reflexivity).
  assert (L : legal_name (T "LOOP_1")) by (apply legal_check; vm_compute; reflexivity).
  assert (M : forall m, existsb (fun '(n, _, _, _) => String.eqb n m) table = true -> is_name m).
  { intros m H. apply existsb_exists in H. destruct H as ([[[n md] op] k] & I & E). apply String.eqb_eq in E. subst n. exists md, op, k. exact I. }
  split; [|vm_compute; reflexivity].
  repeat (apply Forall_cons; [split; [vm_compute; lia|]|]); [| | | | | | | |apply Forall_nil].
  - split; [exact P|lia].
  - lia.
  - split; [intros n E; injection E as <-; exact L|]. split; [apply M; vm_compute; reflexivity|exact P].
  - split; [discriminate|]. split; [apply M; vm_compute; reflexivity|exact I].
  - split; [discriminate|]. split; [apply M; vm_compute; reflexivity|exact L].
  - exact I.
  - split; [discriminate|]. split; [apply M; vm_compute; reflexivity|exact I].
  - exact I.
Qed.

(** two labels of 61 characters: correct, but no line is long enough *)
Definition long_name : text := repeat "L"%char 61.
Example C89_too_long : legal_name long_name /\ legal (SInstr (Some long_name) "LDA" ONone) /\ legal (SInstr None "LDA" (ODir (Lab long_name))) /\
  forall src, ~ program_means src [SInstr (Some long_name) "LDA" (ODir (Lab long_name))].
Proof.
  assert (P : legal_name long_name) by (apply legal_check; vm_compute; reflexivity).
  assert (M : is_name "LDA") by (exists IMM, 0xA9, 2; vm_compute; tauto).
  split; [exact P|]. split; [split; [vm_compute; lia|split; [intros n E; injection E as <-; exact P|split; [exact M|exact I]]]|].
  split; [split; [vm_compute; lia|split; [discriminate|split; [exact M|exact P]]]|].
  intros src K. assert (F : Forall legal [SInstr (Some long_name) "LDA" (ODir (Lab long_name))]) by (apply C89_exact; eauto).
  inversion F as [|x y [K1 _]]; subst. revert K1. clear. vm_compute. lia.
Qed.
