(** Prop_Alloc.v -- how many allocations a run tries (C69). *)
From Coq Require Import Lia.
From Verif Require Import Base Model_Opcode Model_Error Model_Lexer Model_SymbolTable Model_Parser
  Model_ForwardRef Model_Generator Model_Main Model_Memory
  Proof_Base Proof_Heap Proof_HeapRun Proof_Run Proof_Source Prop_Run Prop_Memory.
Local Open Scope nat_scope.

Section Two.
(** two histories of allocations that agree on the first [N] *)
Variables o1 o2 : Oracle.
Variable N : nat.
Hypothesis Agree : forall n, n < N -> o1 n = o2 n.

(** from [h], both do the same and try at most [k] allocations *)
Definition tries {A : Type} (pr : A -> Heap) (k : nat) (h : Heap) (m1 m2 : M A) : Prop :=
  h_tries h + k <= N ->
  m1 = m2 /\ forall a, m1 = Ret a -> h_tries h <= h_tries (pr a) <= h_tries h + k.
Definition quiet (h : Heap) (m : M Heap) : Prop := forall h', m = Ret h' -> h_tries h' = h_tries h.

Lemma tries_bind : forall A B (pa : A -> Heap) (pb : B -> Heap) k1 k2 k h m1 m2 g1 g2,
  tries pa k1 h m1 m2 -> (forall a, m1 = Ret a -> tries pb k2 (pa a) (g1 a) (g2 a)) -> k1 + k2 <= k ->
  tries pb k h (bind m1 g1) (bind m2 g2).
Proof.
  intros A B pa pb k1 k2 k h m1 m2 g1 g2 H1 H2 L K. destruct H1 as (<- & H1); [lia|].
  destruct m1 as [a| |]; cbn [bind]; try (split; [reflexivity|discriminate]).
  specialize (H1 a eq_refl). destruct (H2 a eq_refl) as (<- & H3); [lia|]. split; [reflexivity|].
  intros b E. specialize (H3 b E). lia.
Qed.
Lemma tries_pure : forall A B (pb : B -> Heap) k h (m : M A) g1 g2,
  (forall a, m = Ret a -> tries pb k h (g1 a) (g2 a)) -> tries pb k h (bind m g1) (bind m g2).
Proof.
  intros A B pb k h m g1 g2 H. destruct m as [a| |]; cbn [bind]; try (intros _; split; [reflexivity|discriminate]).
  apply H. reflexivity.
Qed.
Lemma tries_quiet : forall B (pb : B -> Heap) k h h0 (m : M Heap) g1 g2, quiet h m -> h_tries h = h_tries h0 ->
  (forall h', h_tries h' = h_tries h0 -> tries pb k h' (g1 h') (g2 h')) -> tries pb k h0 (bind m g1) (bind m g2).
Proof.
  intros B pb k h h0 m g1 g2 Q E H. destruct m as [h'| |]; cbn [bind]; try (intros _; split; [reflexivity|discriminate]).
  specialize (Q h' eq_refl). specialize (H h' ltac:(congruence)). unfold tries in *. rewrite <- E, <- Q in *. exact H.
Qed.
Lemma tries_ret : forall A (pr : A -> Heap) k h a, h_tries (pr a) = h_tries h -> tries pr k h (Ret a) (Ret a).
Proof. intros A pr k h a E L. split; [reflexivity|]. intros b [= <-]. lia. Qed.
Lemma tries_fail : forall A (pr : A -> Heap) k h u, tries pr k h (Undef u) (Undef u).
Proof. intros A pr k h u L. split; [reflexivity|discriminate]. Qed.
Lemma tries_malloc : forall A (pr : A -> Heap) k h c (g1 g2 : ptr -> Heap -> M A),
  (forall p h1, h_tries h1 = S (h_tries h) -> tries pr k h1 (g1 p h1) (g2 p h1)) ->
  tries pr (S k) h (let '(p, h1) := malloc o1 c h in g1 p h1) (let '(p, h1) := malloc o2 c h in g2 p h1).
Proof.
  intros A pr k h c g1 g2 H L. unfold malloc. rewrite <- Agree by lia. destruct (o1 (h_tries h)).
  - destruct (H (Some (h_next h)) (mkHeap ((h_next h, c) :: h_cells h) (S (h_next h)) (S (h_tries h))) eq_refl)
      as (E & F); [cbn [h_tries]; lia|]. split; [exact E|]. intros a X. specialize (F a X). cbn [h_tries] in F. lia.
  - destruct (H None (mkHeap (h_cells h) (h_next h) (S (h_tries h))) eq_refl)
      as (E & F); [cbn [h_tries]; lia|]. split; [exact E|]. intros a X. specialize (F a X). cbn [h_tries] in F. lia.
Qed.
Lemma tries_more : forall A (pr : A -> Heap) k k' h m1 m2, k <= k' -> tries pr k h m1 m2 -> tries pr k' h m1 m2.
Proof. intros A pr k k' h m1 m2 K H L. destruct H as (E & F); [lia|]. split; [exact E|]. intros a X. specialize (F a X). lia. Qed.
Lemma tries_start : forall A (pr : A -> Heap) k h h' m1 m2, h_tries h = h_tries h' -> tries pr k h m1 m2 -> tries pr k h' m1 m2.
Proof. intros A pr k h h' m1 m2 E H. unfold tries in *. rewrite <- E. exact H. Qed.

(** *** what allocates nothing *)
Lemma quiet_bind : forall h (m : M Heap) g, quiet h m -> (forall h', h_tries h' = h_tries h -> quiet h' (g h')) -> quiet h (bind m g).
Proof.
  intros h m g Q H h' E. apply bind_ret in E. destruct E as (h1 & E1 & E2). specialize (Q _ E1).
  rewrite (H h1 Q h' E2). exact Q.
Qed.
Lemma quiet_pure : forall A h (m : M A) g, (forall a, quiet h (g a)) -> quiet h (bind m g).
Proof. intros A h m g H h' E. apply bind_ret in E. destruct E as (a & _ & E). exact (H a h' E). Qed.
Lemma quiet_ret : forall h, quiet h (Ret h).
Proof. intros h h' [= <-]. reflexivity. Qed.
Lemma quiet_undef : forall h u, quiet h (Undef u).
Proof. intros h u h' [=]. Qed.
Lemma quiet_store : forall h p c, quiet h (store h p c).
Proof. intros h p c h' E. unfold store in E. destruct p as [a|]; [|discriminate]. destruct (lookup a (h_cells h)); [|discriminate]. injection E as <-. reflexivity. Qed.
Lemma quiet_free : forall h p, quiet h (free h p).
Proof. intros h p h' E. unfold free in E. destruct p as [a|]; [|injection E as <-; reflexivity]. destruct (lookup a (h_cells h)); [|discriminate]. injection E as <-. reflexivity. Qed.
Lemma quiet_fill : forall h p s, quiet h (fill_str h p s).
Proof.
  intros h p s. unfold fill_str. apply quiet_pure. intros c. destruct c; try apply quiet_undef.
  destruct (Nat.ltb _ _); [apply quiet_store|apply quiet_undef].
Qed.
Ltac quiet1 :=
  match goal with
  | |- quiet _ (Ret _) => apply quiet_ret
  | |- quiet _ (Undef _) => apply quiet_undef
  | |- quiet _ Diverge => intros ? [=]
  | |- quiet _ (store _ _ _) => apply quiet_store
  | |- quiet _ (free _ _) => apply quiet_free
  | |- quiet _ (fill_str _ _ _) => apply quiet_fill
  | |- quiet _ (if ?b then _ else _) => destruct b
  | |- quiet _ (match ?x with _ => _ end) => destruct x
  | |- quiet ?h (@bind Heap _ _ _) => apply quiet_bind; [|intros ? ?]
  | |- quiet _ (bind _ _) => apply quiet_pure; intros ?
  | |- quiet _ (let '_ := ?x in _) => destruct x
  end.
Ltac hush := repeat quiet1.
Lemma quiet_fclose : forall h p, quiet h (fclose h p).
Proof. intros. unfold fclose. hush. Qed.
Lemma quiet_token : forall h p, quiet h (destroy_token_h h p).
Proof. intros. unfold destroy_token_h. hush. Qed.
Lemma quiet_tokens : forall n i lx h, quiet h (destroy_tokens_h n i lx h).
Proof.
  induction n as [|n IH]; intros; cbn [destroy_tokens_h]; hush; [apply quiet_token|apply IH].
Qed.
Lemma quiet_lexer : forall h p, quiet h (destroy_lexer_h h p).
Proof. intros. unfold destroy_lexer_h. hush. apply quiet_tokens. Qed.
Lemma quiet_symbol : forall h p, quiet h (destroy_symbol_h h p).
Proof. intros. unfold destroy_symbol_h. hush. Qed.
Lemma quiet_symbols : forall n i p h, quiet h (destroy_symbols_h n i p h).
Proof. induction n as [|n IH]; intros; cbn [destroy_symbols_h]; hush; [apply quiet_symbol|apply IH]. Qed.
Lemma quiet_symtab : forall h p, quiet h (destroy_symbol_table_h h p).
Proof. intros. unfold destroy_symbol_table_h. hush. apply quiet_symbols. Qed.
Lemma quiet_ref : forall h p, quiet h (destroy_forward_ref_h h p).
Proof. intros. unfold destroy_forward_ref_h, destroy_instruction_h. hush. Qed.
Lemma quiet_refs : forall n i p h, quiet h (destroy_refs_h n i p h).
Proof. induction n as [|n IH]; intros; cbn [destroy_refs_h]; hush; [apply quiet_ref|apply IH]. Qed.
Lemma quiet_unres : forall h p, quiet h (destroy_unresolved_h h p).
Proof. intros. unfold destroy_unresolved_h. hush. apply quiet_refs. Qed.
Lemma quiet_abort : forall h p, quiet h (abort_gaia_h h p).
Proof.
  intros. unfold abort_gaia_h, destroy_instruction_h.
  hush; auto using quiet_fclose, quiet_lexer, quiet_token, quiet_symtab, quiet_unres.
Qed.
Lemma quiet_finish : forall h p, quiet h (finish_h h p).
Proof.
  intros. unfold finish_h, destroy_instruction_h.
  hush; auto using quiet_fclose, quiet_lexer, quiet_token, quiet_symtab, quiet_unres.
Qed.
Lemma quiet_rehash : forall n i p q s h, quiet h (rehash_all_h n i p q s h).
Proof. induction n as [|n IH]; intros; cbn [rehash_all_h]; unfold rehash_one_h; hush. apply IH. Qed.
(** *** what allocates *)
Ltac one :=
  match goal with
  | |- tries _ _ _ (Ret _) (Ret _) => apply tries_ret; cbn [fst snd]; congruence
  | |- tries _ _ _ (Undef _) (Undef _) => apply tries_fail
  | |- tries _ _ _ (let '(_, _) := malloc _ _ _ in _) _ => apply tries_malloc; intros ? ? ?
  | |- tries _ _ _ (if ?b then _ else _) _ => destruct b eqn:?
  | |- tries _ _ _ (@bind Heap _ ?m _) _ => refine (tries_quiet _ _ _ _ _ m _ _ _ _ _);
      [solve [hush; auto using quiet_rehash, quiet_abort, quiet_finish]|congruence|intros ? ?; cbv beta]
  | |- tries _ _ _ (bind ?m _) (bind ?m _) => apply tries_pure; intros ? ?
  | |- tries _ _ _ (let '_ := ?x in _) _ => destruct x
  end.
Ltac go := repeat one.

Lemma token_tries : forall h, tries snd 2 h (init_token_h o1 h) (init_token_h o2 h).
Proof. intros h. unfold init_token_h. go. Qed.
Lemma tokens_tries : forall n s h, tries snd (2 * n) h (init_tokens_h o1 n s h) (init_tokens_h o2 n s h).
Proof.
  induction n as [|n IH]; intros s h; cbn [init_tokens_h]; [go|].
  eapply (tries_bind _ _ snd snd 2 (2 * n)); [apply token_tries| |lia].
  intros [tk h1] _. cbn [snd]. go. eapply tries_start; [|apply IH]. congruence.
Qed.
Lemma sequence_tries : forall h, tries snd 17 h (init_sequence_h o1 h) (init_sequence_h o2 h).
Proof.
  intros h. unfold init_sequence_h. go. eapply (tries_bind _ _ snd snd 16 0); [|intros [ok h2] _; cbn [snd]; go|lia].
  apply (tokens_tries 8).
Qed.
Lemma lexer_tries : forall h, tries snd 18 h (init_lexer_h o1 h) (init_lexer_h o2 h).
Proof.
  intros h. unfold init_lexer_h. go.
  eapply (tries_bind _ _ snd snd 17 0); [apply sequence_tries|intros [s h2] _; cbn [snd]; go|lia].
Qed.
Lemma instruction_tries : forall h, tries snd 1 h (init_instruction_h o1 h) (init_instruction_h o2 h).
Proof. intros h. unfold init_instruction_h. go. Qed.
Lemma symtab_tries : forall h, tries snd 2 h (init_symbol_table_h o1 h) (init_symbol_table_h o2 h).
Proof. intros h. unfold init_symbol_table_h. go. Qed.
Lemma unres_tries : forall h, tries snd 2 h (init_unresolved_h o1 h) (init_unresolved_h o2 h).
Proof. intros h. unfold init_unresolved_h. go. Qed.

Lemma resize_tries : forall h p, tries snd 1 h (resize_symbols_h o1 h p) (resize_symbols_h o2 h p).
Proof. intros h p. unfold resize_symbols_h. go. Qed.
Lemma symbol_tries : forall h l v, tries snd 2 h (init_symbol_h o1 h l v) (init_symbol_h o2 h l v).
Proof. intros h l v. unfold init_symbol_h. go. Qed.
Lemma insert_tries : forall h p l v, tries snd 3 h (insert_symbol_h o1 h p l v) (insert_symbol_h o2 h p l v).
Proof.
  intros h p l v. unfold insert_symbol_h. go. cbv zeta.
  eapply (tries_bind _ _ snd snd 1 2); [one; [apply resize_tries|go]| |lia].
  intros [ok h1] _. cbn [snd]. go.
  eapply (tries_bind _ _ snd snd 2 0); [apply symbol_tries| |lia]. intros [s h2] _. cbn [snd]. go.
Qed.
Lemma declare_tries : forall h p lx i f v,
  tries (fun r => snd (fst r)) 3 h (declare_h o1 h p lx i f v) (declare_h o2 h p lx i f v).
Proof.
  intros h p lx i f v. unfold declare_h. go.
  eapply (tries_bind _ _ snd _ 3 0); [apply insert_tries| |lia]. intros [c h1] _. cbn [snd]. go.
Qed.
Lemma declaration_tries : forall h p lx pc,
  tries (fun r => snd (fst r)) 3 h (parse_label_declaration_h o1 h p lx pc) (parse_label_declaration_h o2 h p lx pc).
Proof. intros h p lx pc. unfold parse_label_declaration_h. go; cbv zeta; go; apply declare_tries. Qed.
Lemma create_tries : forall h b i t os pc n,
  tries snd 4 h (create_forward_ref_h o1 h b i t os pc n) (create_forward_ref_h o2 h b i t os pc n).
Proof.
  intros h b i t os pc n. unfold create_forward_ref_h. go.
  eapply (tries_bind _ _ snd snd 1 0); [eapply tries_start; [|apply instruction_tries]; congruence| |lia].
  intros [q h6] _. cbn [snd]. destruct (tk_loc t); go.
Qed.
Lemma grow_tries : forall h p, tries snd 1 h (resize_unresolved_h o1 h p) (resize_unresolved_h o2 h p).
Proof. intros h p. unfold resize_unresolved_h. go. Qed.
Lemma add_tries : forall h p r, tries snd 1 h (add_forward_ref_h o1 h p r) (add_forward_ref_h o2 h p r).
Proof.
  intros h p r. unfold add_forward_ref_h. go.
  eapply (tries_bind _ _ snd snd 1 0); [one; [apply grow_tries|go]| |lia]. intros [ok h1] _. cbn [snd]. go.
Qed.
Lemma instr_tries : forall p b st h, tries snd 5 h (process_instruction_h o1 p b st h) (process_instruction_h o2 p b st h).
Proof.
  intros p b st h. unfold process_instruction_h. go. cbv zeta. go.
  eapply (tries_bind _ _ snd snd 5 0); [| |lia].
  - one; [|go]. match goal with |- context [match ?x with Some _ => _ | None => _ end] => destruct x end; go.
    eapply (tries_bind _ _ snd snd 4 1); [apply create_tries| |lia]. intros [r h1] _. cbn [snd]. go.
    eapply (tries_bind _ _ snd snd 1 0); [apply add_tries| |lia]. intros [c h2] _. cbn [snd]. go.
  - intros [[f|] h1] _; cbn [snd]; go.
Qed.
Lemma line_tries : forall p b st h, tries snd 8 h (process_line_h o1 p b st h) (process_line_h o2 p b st h).
Proof.
  intros p b st h.
  assert (R : forall mn st0 h0, tries snd 5 h0
    match mn with
    | NULL_MNEMONIC =>
      bind (int_of (m_line_num st0 + 1)) (fun n =>
      Ret (NextH (mkStH (m_pc st0) n (m_written st0) (m_total st0) (m_out st0) (m_lexer st0) (m_tk st0)
                        (m_instr st0) (m_stdout st0)), h0))
    | _ => process_instruction_h o1 p b st0 h0
    end
    match mn with
    | NULL_MNEMONIC =>
      bind (int_of (m_line_num st0 + 1)) (fun n =>
      Ret (NextH (mkStH (m_pc st0) n (m_written st0) (m_total st0) (m_out st0) (m_lexer st0) (m_tk st0)
                        (m_instr st0) (m_stdout st0)), h0))
    | _ => process_instruction_h o2 p b st0 h0
    end).
  { intros mn st0 h0. destruct mn; solve [apply instr_tries | go]. }
  assert (R8 := fun mn st0 h0 => tries_more _ snd 5 8 h0 _ _ ltac:(lia) (R mn st0 h0)).
  unfold process_line_h. cbv zeta. apply tries_pure. intros x1 _. apply tries_pure. intros [[[[rc lx1] tk1] i1] out1] _.
  one; [one|]. apply tries_pure. intros [[rc2 lx2] out2] _. one; [one|]. apply tries_pure. intros first _.
  match goal with |- tries _ _ _ (match tk_type ?x with _ => _ end) _ => destruct (tk_type x) end;
    try apply R8; try one.
  all: eapply (tries_bind _ _ (fun r => snd (fst r)) snd 3 5); [apply declaration_tries| |lia];
    intros [[[c lx] h3] o] _; cbn [fst snd]; one; [one|apply R].
Qed.
Lemma lines_tries : forall p lines st h,
  tries snd (8 * List.length lines) h (run_lines_h o1 p lines st h) (run_lines_h o2 p lines st h).
Proof.
  induction lines as [|l lines IH]; intros st h; cbn [run_lines_h List.length]; [go|].
  eapply (tries_bind _ _ snd snd 8 (8 * List.length lines)); [apply line_tries| |lia].
  intros [[s|s|s] h1] _; cbn [snd]; [apply IH|go|go].
Qed.
Lemma assemble_tries : forall p name src h,
  tries snd (8 * List.length (chunks src)) h (assemble_h o1 p name src h) (assemble_h o2 p name src h).
Proof.
  intros p name src h. unfold assemble_h. cbv zeta.
  eapply (tries_bind _ _ snd snd (8 * List.length (chunks src)) 0); [apply lines_tries| |lia].
  intros [[s|s|s] h1] _; cbn [snd]; go.
Qed.
End Two.

(** ** C69.  [h_tries h] is the number of calls of malloc, calloc and realloc of the run. *)
Definition newlines (s : text) : nat := List.length (filter (Ascii.eqb ch_nl) s).
(** at most this many reads of up to 127 characters of a line each *)
Definition most_reads (s : text) : nat := newlines s + List.length s / 127 + 1.
Definition most_calls (file : option (list Z)) : nat :=
  match file with
  | None => 25
  | Some bytes => 25 + 8 * most_reads (map chr bytes)
  end.

Lemma fgets_cut : forall n s l r, fgets n s = (l, r) ->
  In ch_nl l \/ List.length l = n \/ r = [].
Proof.
  induction n as [|n IH]; intros s l r E; [cbn [fgets] in E; injection E as <- <-; right; left; reflexivity|].
  destruct s as [|c s]; cbn [fgets] in E; [injection E as <- <-; auto|].
  destruct (Ascii.eqb_spec c ch_nl) as [->|D]; [injection E as <- <-; left; left; reflexivity|].
  destruct (fgets n s) as [l1 r1] eqn:F. injection E as <- <-. destruct (IH _ _ _ F) as [I|[I|I]].
  - left. right. exact I.
  - right. left. cbn [List.length]. lia.
  - auto.
Qed.
Lemma newlines_app : forall a b, newlines (a ++ b) = newlines a + newlines b.
Proof. intros a b. unfold newlines. rewrite filter_app, app_length. reflexivity. Qed.
Lemma newlines_in : forall s, In ch_nl s -> 1 <= newlines s.
Proof.
  intros s I. assert (J : In ch_nl (filter (Ascii.eqb ch_nl) s)) by (apply filter_In; split; [exact I|apply Ascii.eqb_refl]).
  unfold newlines. destruct (filter (Ascii.eqb ch_nl) s); [contradiction|cbn [List.length]; lia].
Qed.
Lemma chunks_count : forall s, List.length (chunks s) <= most_reads s.
Proof.
  assert (W : forall n s, List.length s <= n ->
    127 * List.length (chunks s) <= 127 * newlines s + List.length s + 126).
  { induction n as [|n IH]; intros s L.
    - destruct s; [cbn; lia|cbn [List.length] in L; lia].
    - destruct s as [|c s0]; [cbn; lia|]. destruct (fgets 127 (c :: s0)) as [l r] eqn:E.
      rewrite (chunks_cons (c :: s0) l r) by (exact E || discriminate).
      destruct (fgets_progress 126 _ _ _ _ E) as (_ & P). cbn [List.length] in L |- *.
      destruct (fgets_length _ _ _ _ E) as (S & _). assert (SL := f_equal (@List.length _) S).
      rewrite app_length in SL. cbn [List.length] in SL. rewrite S, newlines_app.
      specialize (IH r ltac:(lia)). destruct (fgets_cut _ _ _ _ E) as [I|[I|I]].
      + apply newlines_in in I. lia.
      + lia.
      + subst r. cbn [List.length] in *. change (List.length (chunks [])) with 0. lia. }
  intros s. specialize (W _ s (le_n _)). unfold most_reads.
  pose proof (Nat.div_mod (List.length s) 127 ltac:(lia)). pose proof (Nat.mod_upper_bound (List.length s) 127 ltac:(lia)). lia.
Qed.

Lemma main_tries : forall o1 o2 fs src out, (forall n, n < most_calls (fs_file fs src) -> o1 n = o2 n) ->
  main_h o1 fs src out = main_h o2 fs src out /\
  forall r h, main_h o1 fs src out = Ret (r, h) -> h_tries h <= most_calls (fs_file fs src).
Proof.
  intros o1 o2 fs src out A. set (N := most_calls (fs_file fs src)) in *.
  assert (T : tries N snd N empty_heap (main_h o1 fs src out) (main_h o2 fs src out)).
  { unfold main_h. cbv zeta.
    assert (N0 : exists k, N = 25 + k) by (unfold N, most_calls; destruct (fs_file fs src); eexists; [reflexivity|symmetry; apply Nat.add_0_r]).
    destruct N0 as (k & EN).
    eapply (tries_bind N _ _ snd snd 18 (7 + k)); [apply lexer_tries; exact A| |lia]. intros [lx h1] _. cbn [snd].
    eapply (tries_bind N _ _ snd snd 2 (5 + k)); [apply token_tries; exact A| |lia]. intros [tk h2] _. cbn [snd].
    eapply (tries_bind N _ _ snd snd 1 (4 + k)); [apply instruction_tries; exact A| |lia]. intros [ins h3] _. cbn [snd].
    eapply (tries_bind N _ _ snd snd 2 (2 + k)); [apply symtab_tries; exact A| |lia]. intros [tab h4] _. cbn [snd].
    eapply (tries_bind N _ _ snd snd 2 k); [apply unres_tries; exact A| |lia]. intros [un h5] _. cbn [snd].
    assert (F : forall code inf hf, h_tries hf = h_tries h5 -> tries N snd k h5
      (bind (print_error None code None src (-1)) (fun o =>
       bind (abort_gaia_h hf (mkPtrs inf None lx tk ins tab un)) (fun h' => Ret (EXIT_FAILURE, o, fs, h'))))
      (bind (print_error None code None src (-1)) (fun o =>
       bind (abort_gaia_h hf (mkPtrs inf None lx tk ins tab un)) (fun h' => Ret (EXIT_FAILURE, o, fs, h'))))).
    { intros code inf hf E. apply tries_pure. intros o _. eapply tries_quiet; [apply quiet_abort|exact E|].
      intros h' E'. apply tries_ret. reflexivity. }
    destruct (is_null lx || is_null tk || is_null ins || is_null tab || is_null un); [apply F; reflexivity|].
    destruct (fs_file fs src) as [bytes|] eqn:EF; [|apply F; reflexivity].
    unfold new_file. cbn [h_next h_cells h_tries].
    destruct (negb (fs_creatable fs out)); [apply F; reflexivity|].
    match goal with |- context [assemble_h _ _ _ ?s _] => set (source := s) end.
    assert (K : 8 * List.length (chunks source) <= k).
    { assert (L : List.length (chunks source) <= most_reads (map chr bytes)).
      { unfold source. cbn [fs_write fs_file]. destruct (text_eqb src out).
        - cbn [map]. change (List.length (chunks [])) with 0. lia.
        - rewrite EF. apply chunks_count. }
      unfold N, most_calls in EN. lia. }
    eapply (tries_bind N _ _ snd snd k 0); [| |lia].
    - eapply tries_start; [|eapply tries_more; [exact K|apply assemble_tries; exact A]]. reflexivity.
    - intros [o h8] _. cbn [snd]. apply tries_ret. reflexivity. }
  destruct T as (E & B); [reflexivity|]. split; [exact E|]. intros r h H. apply (B (r, h) H).
Qed.

(** a run calls the allocator at most 25 times and 8 times for each read *)
Theorem C69_calls : forall orc fs src out r h,
  main_h orc fs src out = Ret (r, h) -> h_tries h <= most_calls (fs_file fs src).
Proof. intros orc fs src out r h H. apply (proj2 (main_tries orc orc fs src out (fun _ _ => eq_refl)) r h H). Qed.

(** what happens to later allocations does not matter *)
Theorem C69_enough : forall o1 o2 fs src out,
  (forall n, n < most_calls (fs_file fs src) -> o1 n = o2 n) ->
  main_h o1 fs src out = main_h o2 fs src out.
Proof. intros o1 o2 fs src out A. apply main_tries. exact A. Qed.

(** if these allocations succeed, the run is not disturbed and releases everything *)
Theorem C69_undisturbed : forall orc fs src out,
  (forall bytes, fs_file fs src = Some bytes ->
     (Z.of_nat (List.length bytes) < 20000000)%Z /\ Forall (fun b => 0 <= b < 128)%Z bytes) ->
  (forall n, n < most_calls (fs_file fs src) -> orc n = true) ->
  exists code text fs' h, main_h orc fs src out = Ret (code, text, fs', h) /\
    main true no_failure fs src out = Ret (code, text, fs') /\ blocks_in_use h = 0 /\ files_open h = 0.
Proof.
  intros orc fs src out H A. destruct (C51_memory orc fs src out H) as (code & text & fs' & h & E & F & _ & S & _).
  exists code, text, fs', h. split; [exact E|].
  destruct S as (M & B).
  { intros n L. apply A. pose proof (C69_calls _ _ _ _ _ _ E). lia. }
  auto.
Qed.

(** the bound for the program of C51_case, and the calls it makes *)
Example C69_case : most_calls (fs_file memory_fs (T "a.asm")) = 65 /\
  view (main_h (fun n => Nat.ltb n 37) memory_fs (T "a.asm") (T "a.out")) =
  Some (0%Z, Some [169; 1; 240; 3; 76; 7; 0; 96]%Z, 0, 0, 37).
Proof. split; vm_compute; reflexivity. Qed.
(** six calls for each line with a label and a reference, one more for the eighth reference *)
Definition eight_fs : FileSystem :=
  mkFS (fun n => if text_eqb n (T "a.asm") then
                   Some (map code (List.concat (map (fun c => [c] ++ T " BEQ Z" ++ [ch_nl]) (T "BCDEFGHI"))))
                 else None)
       (fun _ => true).
Example C69_eight : most_calls (fs_file eight_fs (T "a.asm")) = 97 /\
  view (main_h (fun _ => true) eight_fs (T "a.asm") (T "a.out")) =
  Some (1%Z, Some (List.concat (repeat [240; 0]%Z 8)), 0, 0, 74).
Proof. split; vm_compute; reflexivity. Qed.
