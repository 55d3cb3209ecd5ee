(** Prop_History.v -- C52: the lines are taken in order; what has been read decides. *)
From Verif Require Import Base Proof_Base Model_Opcode Model_Error Model_Lexer Model_SymbolTable
  Model_Parser Model_ForwardRef Model_Generator Model_Main Spec_Isa Spec_Text Spec_Asm Spec_Link Spec_Report
  Proof_Opcode Proof_Chars Proof_Error Proof_Lex1 Proof_Lex2 Proof_Prime Proof_Table
  Proof_Refs Proof_Core Proof_Parse Proof_Sim1 Prop_Table Proof_Sim2 Proof_Sim3 Proof_Sim4 Proof_Run
  Proof_Source Proof_Whole Proof_Check Proof_Decimal.

(** ** Stopping in the middle *)
Fixpoint go (env : Z -> AllocEnv) (chs : list text) (st : St) : M LineRes :=
  match chs with
  | [] => Ret (Next st)
  | l :: chs' =>
    r <- process_line (env (st_line_num st)) (cstring l) st ;;
    match r with
    | Next st' => go env chs' st'
    | _ => Ret r
    end
  end.

Lemma run_lines_app : forall env a b st, run_lines env (a ++ b) st =
  bind (go env a st) (fun r => match r with Next st' => run_lines env b st' | _ => Ret r end).
Proof.
  intros env. induction a as [|l a IH]; intros b st; [reflexivity|]. cbn [app run_lines go].
  destruct (process_line (env (st_line_num st)) (cstring l) st) as [r|u|]; cbn [bind]; [|reflexivity|reflexivity].
  destruct r; cbn [bind]; auto.
Qed.

Lemma go_sim : forall file chs done st c st', Rel file st c -> Bnd done c ->
  go no_failure chs st = Ret (Next st') -> exists c', Rel file st' c' /\ Bnd (done ++ map cstring chs) c'.
Proof.
  intros file. induction chs as [|ch chs IH]; intros done st c st' HR HB G.
  - cbn in G. injection G as <-. exists c. cbn. rewrite app_nil_r. auto.
  - cbn [go map] in *. set (line := cstring ch) in *. change (no_failure (st_line_num st)) with alloc_all in G.
    pose proof HR as [Qt Qr Qp Ql Qn Qo Q8 Qf Qs].
    assert (Lx : forall lx tk ins out code,
       lex_line line (st_lexer st) (st_tk st) (st_instr st) (st_line_num st) = Ret (code, lx, tk, ins, out) ->
       code < 0 -> False).
    { intros lx tk ins out code E Hc. unfold process_line in G. rewrite E in G. cbn [bind] in G.
      assert (IS_ERROR code = true) as K by (unfold IS_ERROR; apply Z.ltb_lt; lia). rewrite K in G. discriminate. }
    destruct (lex_outcomes line) as [(toks & HL & HN)|[(e & pos & HF)|[HF|HF]]].
    + pose proof (process_line_sim file done line toks st c HR HB HL HN) as Sim.
      destruct Sim as [c2 st2 E1 E2 R2 B2|c2 st2 E1 E2 R2 B2|m2 p2 st2 out E1 E2 _ Rep _|[(u & Hu) Hl]].
      * rewrite E2 in G. cbn [bind] in G. destruct (IH (done ++ [line]) st2 c2 st' R2 B2 G) as (c' & R' & B').
        exists c'. split; auto. rewrite <- app_assoc in B'. exact B'.
      * rewrite E2 in G. discriminate.
      * rewrite E2 in G. discriminate.
      * rewrite Hu in G. discriminate.
    + destruct (lex_line_fails line file (st_line_num st) (st_lexer st) (st_tk st) (st_instr st) e pos Q8 Qf HF)
        as (lx & tk & ins & out & E & Rep). destruct (Lx _ _ _ _ _ E). apply error_code_neg.
    + destruct (lex_line_many line file (st_line_num st) (st_lexer st) (st_tk st) (st_instr st) Q8 Qf HF)
        as (lx & tk & ins & E). destruct (Lx _ _ _ _ _ E). unfold ERROR_TOO_MANY_TOKENS. lia.
    + pose proof (lex_line_undef line file (st_line_num st) (st_lexer st) (st_tk st) (st_instr st) Q8 Qf HF) as E.
      unfold process_line in G. rewrite E in G. discriminate.
Qed.

(** ** Line numbers *)
Definition end_message (m : string) : Prop :=
  m = "label definition was not found"%string \/ m = "branch offset too far away"%string.

Lemma finish_message : forall e refs f m r f', finish e refs f = FErr m r f' -> end_message m.
Proof.
  intros e. induction refs as [|r refs IH]; intros f m r0 f' H; [discriminate|]. cbn in H.
  destruct (lookup e (fr_label r)) as [v|]; [|injection H as <- _ _; left; reflexivity].
  destruct (is_branch _); [|eauto]. destruct (branch_offset _ _); [eauto|]. injection H as <- _ _; right; reflexivity.
Qed.

Lemma line_step_line : forall line toks c c', line_step line toks c = CNext c' -> c_line c' = c_line c + 1.
Proof.
  assert (I : forall line toks m op fl c c', instr_step line toks m op fl c = CNext c' -> c_line c' = c_line c + 1).
  { intros line toks m op fl c c' H. unfold instr_step in H.
    repeat match type of H with context [match ?x with _ => _ end] => destruct x; try discriminate end;
    injection H as <-; reflexivity. }
  intros line toks c c' H. unfold line_step in H.
  repeat match type of H with context [match ?x with _ => _ end] => destruct x; try discriminate end;
  try (injection H as <-; reflexivity); apply I in H; exact H.
Qed.

Lemma Run_number : forall lines c r, Run lines c r -> forall m n pos f, r = FinErr m n pos f ->
  c_line c <= n \/ end_message m.
Proof.
  assert (C : forall c m n pos f, close c = FinErr m n pos f -> end_message m).
  { intros c m n pos f H. unfold close in H. destruct (finish _ _ _) eqn:E; [discriminate|].
    injection H as <- _ _ _. eapply finish_message; eauto. }
  induction 1; intros m0 n0 pos0 f0 E.
  - right. eapply C; eauto.
  - destruct (IHRun _ _ _ _ E) as [K|K]; auto. left. apply line_step_line in H1. lia.
  - right. eapply C; eauto.
  - injection E as <- <- _ _. left. lia.
  - injection E as <- <- _ _. left. lia.
  - discriminate.
  - discriminate.
Qed.

(** ** The theorem *)
Theorem C52_history : forall file lines, Forall fits lines ->
  (* the lines decide the outcome, *)
  (forall rest, gaia file (join lines ++ rest) = gaia file (join lines)) \/
  (* or an error report is about a later line, or about a label of a jump or a branch *)
  (forall rest o, gaia file (join lines ++ rest) = Ret o -> exit_code o <> 0 ->
     stdout o = [] \/
     exists n m line pos, Report file n m line pos (stdout o) /\ (zlen lines < n \/ end_message m)).
Proof.
  intros file lines F.
  assert (G : forall rest, gaia file (join lines ++ rest) =
    bind (bind (go no_failure (map (fun l => l ++ [ch_nl]) lines) (init_state file))
      (fun r => match r with Next st' => run_lines no_failure (chunks rest) st' | _ => Ret r end)) (after_loop file)).
  { intro rest. unfold gaia. rewrite assemble_after, (chunks_join _ _ F), run_lines_app. reflexivity. }
  pose proof (G []) as G0. rewrite app_nil_r in G0.
  destruct (go no_failure (map (fun l => l ++ [ch_nl]) lines) (init_state file)) as [[st|st|st]|u|] eqn:E.
  2,3,4,5: left; intro rest; rewrite (G rest), G0; reflexivity.
  right. intros rest o Ho Hx. rewrite (G rest) in Ho. cbn [bind] in Ho.
  assert (R0 : Rel file (init_state file) core_init) by (constructor; cbn; auto; [apply tab_ok_init|apply refs_ok_init]).
  destruct (go_sim file _ [] _ core_init st R0 Bnd_init E) as (c & R & B).
  cbn [app] in B. destruct (Run_total (map cstring (chunks rest)) c) as (r & Hr).
  pose proof (b_line _ _ B) as Bl. replace (zlen (map cstring (map (fun l => l ++ [ch_nl]) lines))) with (zlen lines) in Bl
    by (unfold zlen; rewrite !map_length; reflexivity).
  destruct (run_sim file (chunks rest) _ st c r R B Hr) as [S|[(u & U) _]]; [|congruence].
  destruct r as [c' f|m n pos f|f|]; cbn [settled] in S.
  - rewrite Ho in S. injection S as ->. destruct Hx. reflexivity.
  - destruct S as (out & line & S & _ & _ & Rep). rewrite Ho in S. injection S as ->. right. exists n, m, line, pos.
    split; [exact Rep|]. destruct (Run_number _ _ _ Hr _ _ _ _ eq_refl) as [K|K]; [left; lia|right; exact K].
  - rewrite Ho in S. injection S as ->. left. reflexivity.
  - congruence.
Qed.

(** an error that is not about the label of a jump or a branch is settled by the lines up to it *)
Theorem C52_decided : forall file lines rest o n m line pos, Forall fits lines ->
  gaia file (join lines ++ rest) = Ret o -> exit_code o <> 0 -> Report file n m line pos (stdout o) ->
  n <= zlen lines -> ~ end_message m -> ~ In ch_nl (T m) ->
  forall rest', gaia file (join lines ++ rest') = Ret o.
Proof.
  intros file lines rest o n m line pos F G X R N E L rest'. destruct (C52_history file lines F) as [H|H].
  - rewrite (H rest'), <- (H rest). exact G.
  - exfalso. destruct (H rest o G X) as [S|(n' & m' & line' & pos' & R' & [K|K])].
    + destruct R as (s & _ & R). rewrite S in R. apply (f_equal (@List.length ascii)) in R. rewrite !app_length in R. cbn in R. lia.
    + rewrite (Report_line _ _ _ _ _ _ _ _ _ _ R R') in N. lia.
    + destruct (Report_inj _ _ _ _ _ _ _ _ _ _ R R' L) as [_ ->]; [|tauto].
      intro I. assert (B : existsb (Ascii.eqb ch_nl) (T m') = true) by (apply existsb_exists; exists ch_nl; split; [exact I|reflexivity]).
      destruct K as [-> | ->]; vm_compute in B; discriminate.
Qed.

(** the first error is reported: the lines before it have none, whatever follows them *)
Theorem C52_first : forall file lines rest o n m line pos, Forall fits lines ->
  gaia file (join lines ++ rest) = Ret o -> exit_code o <> 0 -> Report file n m line pos (stdout o) ->
  zlen lines < n ->
  forall rest' o', gaia file (join lines ++ rest') = Ret o' -> exit_code o' <> 0 ->
    stdout o' = [] \/
    exists n' m' line' pos', Report file n' m' line' pos' (stdout o') /\ (zlen lines < n' \/ end_message m').
Proof.
  intros file lines rest o n m line pos F G X R N. destruct (C52_history file lines F) as [H|H]; [exfalso|exact H].
  rewrite (H rest) in G. destruct (Run_total (lines_of (join lines)) core_init) as (r & Hr).
  destruct (gaia_run file (join lines) r Hr) as [S|[(u & U) _]]; [|congruence].
  destruct r as [c' f|m' n' pos' f|f|]; cbn [settled] in S.
  - rewrite G in S. injection S as ->. destruct X. reflexivity.
  - destruct S as (out & line' & S & P & Nth & R'). rewrite G in S. injection S as ->. cbn in R.
    rewrite (Report_line _ _ _ _ _ _ _ _ _ _ R R') in N.
    assert (L : (Z.to_nat (n' - 1) < List.length (lines_of (join lines)))%nat) by (apply nth_error_Some; congruence).
    assert (E : List.length (lines_of (join lines)) = List.length lines).
    { unfold lines_of. rewrite <- (app_nil_r (join lines)), (chunks_join _ _ F). cbn. rewrite app_nil_r, !map_length. reflexivity. }
    unfold zlen in N. lia.
  - rewrite G in S. injection S as ->. destruct R as (s & _ & R). cbn in R. apply (f_equal (@List.length ascii)) in R. rewrite !app_length in R. cbn in R. lia.
  - congruence.
Qed.

Example C52_case : exists file lines o, Forall fits lines /\ (List.length lines = 3)%nat /\
  gaia file (join lines ++ T "garbage ((") = Ret o /\ exit_code o <> 0 /\
  Report file 2 "illegal syntax" (T "LDA #" ++ [ch_nl]) None (stdout o) /\
  (forall rest, gaia file (join lines ++ rest) = Ret o) /\
  (forall rest o', gaia file (join (firstn 1 lines) ++ rest) = Ret o' -> exit_code o' <> 0 ->
    stdout o' = [] \/
    exists n' m' line' pos', Report file n' m' line' pos' (stdout o') /\ (1 < n' \/ end_message m')).
Proof.
  exists (T "a.asm"), [T "BNE L"; T "LDA #"; T "L: ("]. eexists.
  assert (F : Forall fits [T "BNE L"; T "LDA #"; T "L: ("]) by (apply fitsb_ok; vm_compute; reflexivity).
  split; [exact F|]. split; [reflexivity|].
  match goal with |- ?A /\ _ => assert (G : A) by (vm_compute; reflexivity) end.
  split; [exact G|].
  match goal with |- ?A /\ _ => assert (X : A) by discriminate end. split; [exact X|].
  match goal with |- ?A /\ _ => assert (R : A) end.
  { exists (T "LDA #"). split; [|vm_compute; reflexivity]. exists [ch_nl]. split; [reflexivity|].
    split; [repeat constructor; right; right; left; reflexivity|].
    exists (T "LDA "), "#"%char. split; [reflexivity|]. intros [K|[K|[K|K]]]; discriminate. }
  split; [exact R|]. split.
  - eapply C52_decided; eauto; [vm_compute; discriminate|intros [K|K]; discriminate|]. intro K.
    assert (B : existsb (Ascii.eqb ch_nl) (T "illegal syntax") = true) by (apply existsb_exists; exists ch_nl; split; [exact K|reflexivity]).
    vm_compute in B. discriminate.
  - intros rest o'. refine (C52_first (T "a.asm") [T "BNE L"] (join [T "LDA #"; T "L: ("] ++ T "garbage ((") _ _ _ _ _ _ G X R _ rest o'); [|reflexivity].
    apply fitsb_ok; vm_compute; reflexivity.
Qed.
