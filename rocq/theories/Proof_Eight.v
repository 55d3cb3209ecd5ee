(** Proof_Eight.v -- the token sequence always has eight places. *)
From Verif Require Import Base Proof_Base Model_Opcode Model_Error Model_Lexer Model_SymbolTable
  Model_Parser Model_ForwardRef Model_Generator Model_Main Spec_Isa Spec_Text Proof_Lex1 Proof_Lex2 Proof_Run Proof_Source.

(** [holds m Q]: if [m] returns, its result satisfies [Q] *)
Definition holds {A} (m : M A) (Q : A -> Prop) : Prop := match m with Ret a => Q a | _ => True end.

Lemma holds_bind : forall A B (m : M A) (f : A -> M B) (P : A -> Prop) (Q : B -> Prop), holds m P -> (forall a, P a -> holds (f a) Q) -> holds (bind m f) Q.
Proof. intros A B [a|u|] f P Q H F; cbn in *; auto. Qed.
Lemma holds_true : forall A (m : M A), holds m (fun _ => True).
Proof. intros A [a|u|]; exact I. Qed.
Lemma holds_weak : forall A (m : M A) (P Q : A -> Prop), holds m P -> (forall a, P a -> Q a) -> holds m Q.
Proof. intros A [a|u|] P Q H F; cbn in *; auto. Qed.

Definition eight (lx : Lexer) : Prop := List.length (lx_seq lx) = 8%nat.

Ltac hb := eapply holds_bind; [apply holds_true|cbv beta; intros ? _].
Ltac hc := repeat match goal with |- holds (if ?b then _ else _) _ => destruct b end.

Lemma eight_set : forall lx i v, eight lx -> holds (set_value_at lx i v) eight.
Proof.
  intros lx i v H. unfold set_value_at. hb. destruct (put (lx_seq lx) i (tk_set_value a v)) as [s| |] eqn:E; cbn; auto.
  apply put_ret in E. destruct E as [_ ->]. unfold eight, lx_set_seq; cbn. rewrite upd_length. exact H.
Qed.

Definition keep3 (r : ParseResult) : Prop := eight (snd (fst r)).

Lemma eight_syntax : forall lx c i, eight lx -> holds (syntax_error lx c i) keep3.
Proof. intros lx c i H. unfold syntax_error. hb. hb. exact H. Qed.
Lemma eight_plain : forall lx c, eight lx -> holds (plain_error lx c) keep3.
Proof. intros lx c H. unfold plain_error. hb. exact H. Qed.
Lemma eight_accept : forall lx, eight lx -> holds (accept lx) keep3.
Proof. intros lx H. exact H. Qed.

Ltac walk := repeat first
  [ apply eight_syntax; assumption | apply eight_plain; assumption | apply eight_accept; assumption
  | progress hc
  | eapply holds_bind; [apply eight_set; eassumption|cbv beta; intros ? ?]
  | hb ].

Lemma eight_indirect : forall lx i, eight lx -> holds (parse_indirect_operand_tree lx i) keep3.
Proof. intros lx i H. unfold parse_indirect_operand_tree. walk. Qed.
Lemma eight_instr : forall lx i, eight lx -> holds (parse_instr_tree lx i) keep3.
Proof. intros lx i H. unfold parse_instr_tree. walk. Qed.
Lemma eight_label : forall lx i, eight lx -> holds (parse_label_tree lx i) keep3.
Proof. intros lx i H. unfold parse_label_tree. walk. Qed.
Lemma eight_directive : forall lx i, eight lx -> holds (parse_directive_tree lx i) keep3.
Proof. intros lx i H. unfold parse_directive_tree. walk. Qed.
Lemma eight_base : forall lx i, eight lx -> holds (parse_base_tree lx i) keep3.
Proof. intros lx i H. unfold parse_base_tree. walk. Qed.
Lemma eight_line : forall lx, eight lx -> holds (parse_line lx) keep3.
Proof.
  intros lx H. unfold parse_line. hb. hc; auto using eight_instr, eight_label, eight_directive, eight_base, eight_accept, eight_syntax.
Qed.

Definition keep4 (r : Z * Lexer * SymbolTable * text) : Prop := eight (snd (fst (fst r))).
Lemma eight_declare : forall a b lx t i f v, eight lx -> holds (declare a b lx t i f v) keep4.
Proof.
  intros a b lx t i f v H. unfold declare. hc.
  - eapply holds_bind; [apply eight_syntax; exact H|]. intros [[c l] o] K. exact K.
  - eapply holds_bind; [apply eight_set; exact H|]. intros l K. hb. hb. destruct a1 as [c t']. exact K.
Qed.
Lemma eight_declaration : forall a b lx t pc, eight lx -> holds (parse_label_declaration a b lx t pc) keep4.
Proof.
  intros a b lx t pc H. unfold parse_label_declaration. hb. hb. hb. hb. cbv zeta. hc; [apply eight_declare; exact H|hb; apply eight_declare; exact H|hb; apply eight_declare; exact H|].
  eapply holds_bind; [apply eight_plain; exact H|]. intros [[c l] o] K. exact K.
Qed.
Lemma eight_operand : forall lx ins op t, eight lx -> holds (parse_operand lx ins op t) keep3.
Proof.
  intros lx ins [i|] t H; unfold parse_operand; [|exact H]. hb. hc; try exact H; [|apply eight_plain; exact H].
  unfold parse_label_operand. hb. hb. cbv zeta. hc; try exact H; [|apply eight_syntax; exact H].
  eapply holds_bind; [apply eight_set; exact H|]. intros l K. hc; exact K.
Qed.
Definition keep5 (r : GenResult) : Prop := eight (snd (fst (fst r))).
Lemma eight_resolve : forall f lx ins op s t pc, eight lx -> holds (resolve_label_ref f lx ins op s t pc) keep5.
Proof.
  intros f lx ins [i|] s t pc H; unfold resolve_label_ref.
  2:{ eapply holds_bind; [apply eight_plain; exact H|]. intros [[c l] o] K. exact K. }
  hb. hb. hc.
  - hb. hc; [hb; exact H|]. eapply holds_bind; [apply eight_set; exact H|]. intros l K. hb. destruct (generate_code _ _ _ _) as [[? ?] ?]. exact K.
  - eapply holds_bind; [apply eight_set; exact H|]. intros l K. hb. destruct (generate_code _ _ _ _) as [[? ?] ?]. exact K.
  - eapply holds_bind; [apply eight_plain; exact H|]. intros [[c l] o] K. exact K.
Qed.

Definition goes_on (r : LineRes) : Prop := match r with Next s => eight (st_lexer s) | _ => True end.
Lemma eight_instruction : forall env b st, eight (st_lexer st) -> holds (process_instruction env b st) goes_on.
Proof.
  intros env b st H. unfold process_instruction. hb. eapply holds_bind; [apply eight_operand; exact H|]. intros [[os l1] o1] K. unfold keep3 in K. cbn [fst snd] in K.
  cbv zeta. hc; [exact I|]. hb. destruct a0 as [[rc i2] o2]. hb. destruct a0 as [[u2 f2]|]; [|exact I].
  eapply (holds_bind _ _ _ _ keep5).
  - hc; [apply eight_resolve; exact K|]. hb. destruct (generate_code _ _ _ _) as [[? ?] ?]. exact K.
  - intros [[[[w f3] l3] i3] o3] K'. unfold keep5 in K'. cbn [fst snd] in K'. hc; [exact I|]. repeat hb. exact K'.
Qed.

(** a line is lexed without error, or the run ends with it *)
Lemma eight_process : forall env b st, eight (st_lexer st) -> holds (process_line env b st) goes_on.
Proof.
  intros env b st H. unfold process_line.
  destruct (lex_outcomes b) as [(toks & L & N)|[(e & pos & F)|[F|F]]].
  - rewrite (lex_line_ok b (lx_file (st_lexer st)) (st_line_num st) (st_lexer st) (st_tk st) (st_instr st) toks H eq_refl L N). cbn [bind].
    cbv zeta. match goal with |- context [mkLexer ?a ?b ?c ?d ?e ?f] => set (l1 := mkLexer a b c d e f) end.
    assert (E1 : eight l1). { unfold eight, l1, lx_seq, seq_of. apply pad_length. rewrite run_toks_length. exact N. }
    change (IS_ERROR LEXER_SUCCESS) with false. cbv iota.
    eapply holds_bind; [apply eight_line; exact E1|]. intros [[rc l2] o2] E2. unfold keep3 in E2. cbn [fst snd] in E2. hc; [exact I|]. hb.
    assert (R : forall (k : Mnemonic) st', eight (st_lexer st') ->
      holds (match k with
        | NULL_MNEMONIC => line_num <- int_of (st_line_num st' + 1) ;;
          Ret (Next (mkSt (st_symtab st') (st_unresolved st') (st_pc st') line_num (st_written st') (st_total st') (st_out st') (st_lexer st') (st_tk st') (st_instr st') (st_stdout st')))
        | _ => process_instruction env b st' end) goes_on).
    { intros k st' E. destruct k; try (apply eight_instruction; exact E). hb. exact E. }
    destruct (tk_type a); try (apply R; exact E2); try exact I.
    all: eapply holds_bind; [apply eight_declaration; exact E2|]; intros [[[c l3] t3] o3] E3; unfold keep4 in E3; cbn [fst snd] in E3; hc; [exact I|apply R; exact E3].
  - destruct (lex_line_fails b (lx_file (st_lexer st)) (st_line_num st) (st_lexer st) (st_tk st) (st_instr st) e pos H eq_refl F) as (l1 & t1 & i1 & o & -> & _).
    cbn [bind]. destruct e; exact I.
  - destruct (lex_line_many b (lx_file (st_lexer st)) (st_line_num st) (st_lexer st) (st_tk st) (st_instr st) H eq_refl F) as (l1 & t1 & i1 & ->). exact I.
  - rewrite (lex_line_undef b (lx_file (st_lexer st)) (st_line_num st) (st_lexer st) (st_tk st) (st_instr st) H eq_refl F). exact I.
Qed.

Lemma eight_init : forall file, eight (st_lexer (init_state file)).
Proof. reflexivity. Qed.

(** a line with the directive .END ends the loop *)
Lemma end_stops : forall env b st k, eight (st_lexer st) -> Lexes wr true 0 b [(TDirective DEnd, k)] ->
  exists st', process_line env b st = Ret (Finish st').
Proof.
  intros env b st k H L. unfold process_line.
  rewrite (lex_line_ok b (lx_file (st_lexer st)) (st_line_num st) (st_lexer st) (st_tk st) (st_instr st) _ H eq_refl L) by (cbn; lia).
  cbn -[int_of process_instruction parse_label_declaration]. eexists. reflexivity.
Qed.

(** ** What stands behind such a line does not matter *)
Lemma run_until : forall env lines st, eight (st_lexer st) -> forall e k rest rest',
  Lexes wr true 0 (cstring e) [(TDirective DEnd, k)] ->
  run_lines env (lines ++ e :: rest) st = run_lines env (lines ++ e :: rest') st.
Proof.
  intro env. induction lines as [|l lines IH]; intros st H e k rest rest' L; cbn [app run_lines].
  - destruct (end_stops (env (st_line_num st)) _ st k H L) as (st' & ->). reflexivity.
  - pose proof (eight_process (env (st_line_num st)) (cstring l) st H) as P.
    destruct (process_line (env (st_line_num st)) (cstring l) st) as [[s|s|s]| |]; cbn [bind holds goes_on] in *; try reflexivity.
    eapply IH; eauto.
Qed.

(** the file is cut at every newline *)
Definition ended (s : text) : Prop := s = [] \/ exists p, s = p ++ [ch_nl].

Lemma fgets_ended : forall k s l r x, ended s -> s <> [] -> fgets (S k) s = (l, r) -> ended r /\ fgets (S k) (s ++ x) = (l, r ++ x).
Proof.
  induction k as [|k IH]; intros s l r x [-> |(p & ->)] N F; try congruence.
  - destruct p as [|c p]; cbn in F |- *.
    + injection F as <- <-. split; [left; reflexivity|reflexivity].
    + assert (F' : ([c], p ++ [ch_nl]) = (l, r)) by (destruct (Ascii.eqb c "010"%char); exact F). injection F' as <- <-.
      split; [right; eauto|]. destruct (Ascii.eqb c "010"%char); reflexivity.
  - destruct p as [|c p].
    + cbn in F |- *. injection F as <- <-. split; [left; reflexivity|reflexivity].
    + assert (E : forall y, fgets (S (S k)) ((c :: p ++ [ch_nl]) ++ y) = if Ascii.eqb c ch_nl then ([c], (p ++ [ch_nl]) ++ y) else let '(l, r) := fgets (S k) ((p ++ [ch_nl]) ++ y) in (c :: l, r)) by reflexivity.
      change ((c :: p) ++ [ch_nl]) with (c :: p ++ [ch_nl]) in *. pose proof (E []) as E0. rewrite !app_nil_r in E0. rewrite E0 in F. rewrite E. clear E E0.
      destruct (Ascii.eqb c ch_nl).
      * injection F as <- <-. split; [right; eauto|reflexivity].
      * destruct (fgets (S k) (p ++ [ch_nl])) as [l1 r1] eqn:F1. injection F as <- <-.
        destruct (IH _ _ _ x (or_intror (ex_intro _ p eq_refl)) ltac:(destruct p; discriminate) F1) as [E1 ->]. auto.
Qed.

Lemma chunks_ended : forall s x, ended s -> chunks (s ++ x) = chunks s ++ chunks x.
Proof.
  intros s x. remember (List.length s) as n eqn:E. assert (H : (List.length s <= n)%nat) by lia. clear E. revert s H.
  induction n as [|n IH]; intros s H D.
  - destruct s; [reflexivity|cbn in H; lia].
  - destruct s as [|c s]; [reflexivity|]. destruct (fgets 127 (c :: s)) as [l r] eqn:F.
    assert (N0 : c :: s <> []) by discriminate. assert (N1 : (c :: s) ++ x <> []) by discriminate.
    destruct (fgets_ended 126 _ _ _ x D N0 F) as [Dr F']. destruct (fgets_progress _ _ _ _ _ F) as [_ L].
    rewrite (chunks_cons _ _ _ N0 F), (chunks_cons _ _ _ N1 F'). cbn [app]. f_equal. apply IH; auto.
    cbn [List.length] in H. lia.
Qed.

Theorem assemble_end : forall env file pre e k post, ended pre -> fits e -> Lexes wr true 0 (cstring (e ++ [ch_nl])) [(TDirective DEnd, k)] ->
  assemble env file (pre ++ e ++ ch_nl :: post) = assemble env file (pre ++ e ++ [ch_nl]).
Proof.
  intros env file pre e k post D [Fl Fn] L. unfold assemble.
  rewrite (chunks_ended pre (e ++ ch_nl :: post) D), (chunks_ended pre (e ++ [ch_nl]) D).
  rewrite (chunks_cons (e ++ ch_nl :: post) (e ++ [ch_nl]) post); [|destruct e; discriminate|apply fgets_line; [exact Fn|lia]].
  rewrite (chunks_cons (e ++ [ch_nl]) (e ++ [ch_nl]) []); [|destruct e; discriminate|apply fgets_line; [exact Fn|lia]].
  rewrite (run_until env (chunks pre) _ (eight_init file) _ k (chunks post) (chunks []) L). reflexivity.
Qed.
