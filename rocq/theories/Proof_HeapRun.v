(** Proof_HeapRun.v -- a run with the heap of Model_Memory.v does what Model_Main.v says, or an
    allocation failed. *)
From Coq Require Import Permutation.
From Verif Require Import Base Model_Opcode Model_Error Model_Lexer Model_SymbolTable Model_Parser
  Model_ForwardRef Model_Generator Model_Main Model_Memory
  Proof_Base Proof_Heap Proof_HeapTable Proof_HeapRefs.

(** where the structs of main are *)
Record Where := mkWhere {
  w_inf : nat; w_outf : nat; w_lexer : nat; w_seq : nat; w_toks : list (nat * nat);
  w_tk : nat * nat; w_instr : nat; w_symtab : nat; w_unres : nat }.
Definition ptrs (b : Where) : Ptrs :=
  mkPtrs (Some (w_inf b)) (Some (w_outf b)) (Some (w_lexer b)) (Some (fst (w_tk b)))
         (Some (w_instr b)) (Some (w_symtab b)) (Some (w_unres b)).
Definition base_cells (b : Where) : list block :=
  (w_inf b, CFile) :: (w_outf b, CFile) :: lexer_cells (w_lexer b) (w_seq b) (w_toks b) ++
  tok_cells (w_tk b) ++ [(w_instr b, CInstr)].

(** nothing failed so far, and exactly the structs of main are allocated *)
Definition good (orc : Oracle) (b : Where) (h : Heap) (tab : SymbolTable) (u : Unresolved) : Prop :=
  List.length (w_toks b) = 8%nat /\ exists ss gs size count us rs m,
    tab = table gs size count /\ u = unres rs m /\ Z.of_nat (List.length gs) = size /\ (0 < m)%nat /\
    heap_is orc false h (table_cells (w_symtab b) ss gs size count ++
                         unres_cells (w_unres b) us rs m ++ base_cells b).
(** an allocation failed; the structs of main can still be destroyed *)
Definition spoiled (orc : Oracle) (b : Where) (h : Heap) : Prop :=
  List.length (w_toks b) = 8%nat /\ exists ss gs size count us leak,
    Z.of_nat (List.length gs) = size /\ nofile leak /\
    ((exists s rs m, (0 < m)%nat /\ us = unres_cells (w_unres b) s rs m) \/
     (exists k n, us = [(w_unres b, CUnres None k n)])) /\
    heap_is orc true h (table_cells (w_symtab b) ss gs size count ++ us ++ base_cells b ++ leak).

(** the state of Model_Main.v *)
Definition abs (st : StH) (tab : SymbolTable) (u : Unresolved) : St :=
  mkSt tab u (m_pc st) (m_line_num st) (m_written st) (m_total st) (m_out st) (m_lexer st) (m_tk st)
       (m_instr st) (m_stdout st).
Definition absres (r : LineResH) (tab : SymbolTable) (u : Unresolved) : LineRes :=
  match r with
  | NextH s => Next (abs s tab u)
  | FinishH s => Finish (abs s tab u)
  | AbortH s => Abort (abs s tab u)
  end.
Definition follows (orc : Oracle) (b : Where) (Q : StH -> Prop) (r : LineRes) (r' : LineResH) (h : Heap) : Prop :=
  (exists tab u, r = absres r' tab u /\ good orc b h tab u) \/
  (exists s, r' = AbortH s /\ spoiled orc b h /\ Q s).
(** the run [x] of Model_Main.v is given up with the file and the output of [s] *)
Definition gives (x : M LineRes) (s : StH) : Prop :=
  exists st2, x = Ret (Abort st2) /\ st_out st2 = m_out s /\ st_stdout st2 = m_stdout s.
Definition no_symbol : AllocEnv := mkAlloc false false false false.
Definition no_ref : AllocEnv := mkAlloc true true false false.

Lemma touch_token_spec : forall {orc w} h l t, heap_is orc w h l -> (forall x, In x (tok_cells t) -> In x l) ->
  touch_token h (Some (fst t)) = Ret tt.
Proof.
  intros orc w h l t H J. unfold touch_token, load_token, load_str.
  rewrite (load_spec h _ (fst t) _ H (J _ (or_introl eq_refl))). cbn [bind].
  rewrite (load_spec h _ (snd t) _ H (J _ (or_intror (or_introl eq_refl)))). reflexivity.
Qed.
Lemma touch_spec : forall {orc w} h l b, heap_is orc w h l -> List.length (w_toks b) = 8%nat ->
  (forall x, In x (base_cells b) -> In x l) -> touch h (ptrs b) = Ret tt.
Proof.
  intros orc w h l b H L J. unfold touch, ptrs, load_lexer, load_seq, load_instr.
  cbn [p_inf p_outf p_lexer p_tk p_instr].
  assert (JL : forall x, In x (lexer_cells (w_lexer b) (w_seq b) (w_toks b)) -> In x l).
  { intros x I. apply J. unfold base_cells. right. right. apply in_or_app. left. exact I. }
  assert (JR : forall x, In x (tok_cells (w_tk b) ++ [(w_instr b, CInstr)]) -> In x l).
  { intros x I. apply J. unfold base_cells. right. right. apply in_or_app. right. exact I. }
  rewrite (load_spec h l (w_inf b) CFile H) by (apply J; left; reflexivity). cbn [bind].
  rewrite (load_spec h l (w_outf b) CFile H) by (apply J; right; left; reflexivity). cbn [bind].
  rewrite (load_spec h l (w_lexer b) (CLexer (Some (w_seq b))) H) by (apply JL; left; reflexivity). cbn [bind].
  rewrite (load_spec h l (w_seq b) (CSeq (seq_ptrs (w_toks b))) H) by (apply JL; right; left; reflexivity).
  cbn [bind]. unfold seq_ptrs. rewrite map_length, L. change (Nat.ltb 8 8) with false. cbv iota.
  rewrite (mapM_map _ _ _ (touch_token h) (fun t => Some (fst t)) (fun _ => tt)).
  2:{ intros t I. eapply touch_token_spec; [exact H|]. intros x Hx. apply JL. right. right.
      apply in_flat_map. eauto. }
  cbn [bind]. rewrite (touch_token_spec h l (w_tk b) H).
  2:{ intros x I. apply JR. apply in_or_app. left. exact I. }
  cbn [bind].
  rewrite (load_spec h l (w_instr b) CInstr H) by (apply JR; apply in_or_app; right; left; reflexivity).
  reflexivity.
Qed.

Lemma good_touch : forall orc b h tab u, good orc b h tab u -> touch h (ptrs b) = Ret tt.
Proof.
  intros orc b h tab u (L & ss & gs & size & count & us & rs & m & -> & -> & Lg & Hm & H).
  eapply touch_spec; [exact H|exact L|]. intros x I. apply in_or_app. right. apply in_or_app. right. exact I.
Qed.
Lemma good_symtab : forall orc b h tab u, good orc b h tab u -> read_symtab h (Some (w_symtab b)) = Ret tab.
Proof.
  intros orc b h tab u (L & ss & gs & size & count & us & rs & m & -> & -> & Lg & Hm & H).
  eapply read_symtab_spec; [exact H|reflexivity].
Qed.

(** a definition *)
Lemma good_insert : forall orc b h tab u label v c tab1, good orc b h tab u ->
  insert_symbol true true tab label v = Ret (c, tab1) ->
  exists c' h', insert_symbol_h orc h (Some (w_symtab b)) label v = Ret (c', h') /\
    ((c' = c /\ good orc b h' tab1 u) \/ (c' = ERROR_MEMORY_ALLOCATION_FAIL /\ spoiled orc b h')).
Proof.
  intros orc b h tab u label v c tab1 (L & ss & gs & size & count & us & rs & m & -> & -> & Lg & Hm & H) R.
  destruct (insert_spec_h orc h _ (w_symtab b) ss gs size count
              (unres_cells (w_unres b) us rs m ++ base_cells b) label v c tab1 H)
    as (c' & h' & E & s' & gs' & size' & count' & Lg' & X); [reflexivity|exact Lg|exact R|].
  exists c', h'. split; [exact E|]. destruct X as [(-> & -> & H')|(-> & leak & NF & H')].
  - left. split; [reflexivity|]. split; [exact L|]. exists s', gs', size', count', us, rs, m. auto.
  - right. split; [reflexivity|]. split; [exact L|].
    exists s', gs', size', count', (unres_cells (w_unres b) us rs m), leak.
    split; [exact Lg'|]. split; [exact NF|]. split; [left; eauto|].
    eapply heap_perm; [exact H'|].
    set (p1 := table_cells _ _ _ _ _). set (p2 := unres_cells _ _ _ _). set (p3 := base_cells _). perm.
Qed.

(** without memory nothing is inserted *)
Lemma insert_refused : forall tab label v c tab1, insert_symbol true true tab label v = Ret (c, tab1) ->
  exists tab', insert_symbol false false tab label v = Ret (ERROR_MEMORY_ALLOCATION_FAIL, tab').
Proof.
  intros tab label v c tab1 H. unfold insert_symbol in *.
  apply bind_ret in H. destruct H as (c1 & E1 & H). rewrite E1. cbn [bind].
  apply bind_ret in H. destruct H as (sc & E2 & H). rewrite E2. cbn [bind]. cbv zeta in *.
  destruct (50 <? Z.quot sc (tab_size tab)); [|cbn [bind negb]; eauto].
  unfold resize_symbols in *. apply bind_ret in H. destruct H as (o & E3 & H).
  apply bind_ret in E3. destruct E3 as (tw & E3 & E4). rewrite E3. cbn [bind].
  apply bind_ret in E4. destruct E4 as (nx & E4 & E5). rewrite E4. cbn [bind negb]. eauto.
Qed.

Lemma good_declare : forall orc b h tab u lexer index found v c lx tab1 out, good orc b h tab u ->
  declare true true lexer tab index found v = Ret (c, lx, tab1, out) ->
  exists c' lx' h' out', declare_h orc h (Some (w_symtab b)) lexer index found v = Ret (c', lx', h', out') /\
    ((c' = c /\ lx' = lx /\ out' = out /\ good orc b h' tab1 u) \/
     (c' = ERROR_MEMORY_ALLOCATION_FAIL /\ spoiled orc b h' /\
      exists tab', declare false false lexer tab index found v = Ret (c', lx', tab', out'))).
Proof.
  intros orc b h tab u lexer index found v c lx tab1 out G R. unfold declare, declare_h in *.
  destruct (negb (found =? ERROR_SYMBOL_NOT_FOUND)).
  - apply bind_ret in R. destruct R as ([[c1 lx1] o1] & E & R). rewrite E. cbn [bind]. injection R as <- <- <- <-.
    eexists _, _, _, _. split; [reflexivity|]. left. auto.
  - apply bind_ret in R. destruct R as (lx1 & E1 & R). apply bind_ret in R. destruct R as (lab & E2 & R).
    apply bind_ret in R. destruct R as ([c1 t1] & E3 & R). injection R as <- <- <- <-.
    rewrite E1. cbn [bind]. rewrite E2. cbn [bind].
    destruct (good_insert _ _ _ _ _ _ _ _ _ G E3) as (c' & h' & E & X). rewrite E. cbn [bind].
    eexists _, _, _, _. split; [reflexivity|]. destruct X as [(-> & X)|(-> & X)]; [left; auto|right].
    split; [reflexivity|]. split; [exact X|]. destruct (insert_refused _ _ _ _ _ E3) as (tab' & ->). cbn [bind]. eauto.
Qed.

Lemma good_declaration : forall orc b h tab u lexer pc c lx tab1 out, good orc b h tab u ->
  parse_label_declaration true true lexer tab pc = Ret (c, lx, tab1, out) ->
  exists c' lx' h' out',
    parse_label_declaration_h orc h (Some (w_symtab b)) lexer pc = Ret (c', lx', h', out') /\
    ((c' = c /\ lx' = lx /\ out' = out /\ good orc b h' tab1 u) \/
     (c' = ERROR_MEMORY_ALLOCATION_FAIL /\ spoiled orc b h' /\
      exists tab', parse_label_declaration false false lexer tab pc = Ret (c', lx', tab', out'))).
Proof.
  intros orc b h tab u lexer pc c lx tab1 out G R.
  unfold parse_label_declaration, parse_label_declaration_h in *.
  rewrite (good_symtab _ _ _ _ _ G). cbn [bind].
  do 4 (apply bind_ret in R; let E := fresh "E" in destruct R as (? & E & R); rewrite E; cbn [bind]; clear E).
  cbv zeta in *.
  repeat match goal with |- context [if ?x then _ else _] =>
    match type of R with context [if x then _ else _] => destruct x end end.
  - eapply good_declare; eassumption.
  - apply bind_ret in R. destruct R as (v & E & R). rewrite E. cbn [bind]. eapply good_declare; eassumption.
  - apply bind_ret in R. destruct R as (v & E & R). rewrite E. cbn [bind]. eapply good_declare; eassumption.
  - apply bind_ret in R. destruct R as ([[c1 lx1] o1] & E & R). rewrite E. cbn [bind].
    injection R as <- <- <- <-. eexists _, _, _, _. split; [reflexivity|]. left. auto.
Qed.

(** a pending reference *)
Lemma good_ref : forall orc b h tab u buf i t os pc n ref c u1, good orc b h tab u ->
  create_forward_ref true buf i t os pc n = Ret (Some ref) ->
  add_forward_ref true u ref = Ret (c, u1) ->
  exists p h1, create_forward_ref_h orc h buf i t os pc n = Ret (p, h1) /\
   ((p = None /\ spoiled orc b h1) \/
    (is_null p = false /\ exists c' h2, add_forward_ref_h orc h1 (Some (w_unres b)) p = Ret (c', h2) /\
      ((c' = c /\ good orc b h2 tab u1) \/ (c' = ERROR_MEMORY_ALLOCATION_FAIL /\ spoiled orc b h2)))).
Proof.
  intros orc b h tab u buf i t os pc n ref c u1
    (L & ss & gs & size & count & us & rs & m & -> & -> & Lg & Hm & H) R1 R2.
  destruct (create_ref_spec_h orc h _ buf i t os pc n ref H R1) as (p & h1 & E1 & X).
  exists p, h1. split; [exact E1|]. destruct X as [(g & -> & <- & H1)|(-> & leak & NF & H1)].
  - right. split; [reflexivity|].
    destruct (add_ref_spec_h orc h1 _ (w_unres b) us rs m g (table_cells (w_symtab b) ss gs size count ++ base_cells b)
      c u1 H1 Hm) as (c' & h2 & E2 & X); [|exact R2|].
    { set (p1 := table_cells _ _ _ _ _). set (p2 := unres_cells _ _ _ _). set (p3 := base_cells _).
      set (p4 := pref_cells _). perm. }
    exists c', h2. split; [exact E2|]. destruct X as [(-> & s' & m' & Hm' & -> & H2)|(-> & k & q & leak & NF & H2)].
    + left. split; [reflexivity|]. split; [exact L|]. exists ss, gs, size, count, s', (rs ++ [g]), m'.
      split; [reflexivity|]. split; [reflexivity|]. split; [exact Lg|]. split; [exact Hm'|].
      eapply heap_perm; [exact H2|].
      set (p1 := table_cells _ _ _ _ _). set (p2 := unres_cells _ _ _ _). set (p3 := base_cells _). perm.
    + right. split; [reflexivity|]. split; [exact L|].
      exists ss, gs, size, count, [(w_unres b, CUnres None k q)], leak.
      split; [exact Lg|]. split; [exact NF|]. split; [right; eauto|].
      eapply heap_perm; [exact H2|].
      set (p1 := table_cells _ _ _ _ _). set (p3 := base_cells _). perm.
  - left. split; [reflexivity|]. split; [exact L|].
    exists ss, gs, size, count, (unres_cells (w_unres b) us rs m), leak.
    split; [exact Lg|]. split; [exact NF|]. split; [left; eauto|].
    eapply heap_perm; [exact H1|].
    set (p1 := table_cells _ _ _ _ _). set (p2 := unres_cells _ _ _ _). set (p3 := base_cells _). perm.
Qed.

Lemma fail_is_error : IS_ERROR ERROR_MEMORY_ALLOCATION_FAIL = true.
Proof. reflexivity. Qed.

Lemma add_code : forall u ref c u1, add_forward_ref true u ref = Ret (c, u1) ->
  c = FORWARD_REFERENCE_INSERTION_SUCCESS.
Proof.
  intros u ref c u1 H. unfold add_forward_ref, resize_unresolved in H. cbn [negb] in H.
  apply bind_ret in H. destruct H as (o & E & H).
  assert (exists u2, o = Some u2) as (u2 & ->).
  { destruct (un_curr u =? un_size u - 1); [apply bind_ret in E; destruct E as (? & _ & E)|]; injection E as <-; eauto. }
  repeat (apply bind_ret in H; destruct H as (? & ? & H)). congruence.
Qed.

Lemma instruction_h : forall orc b h tab u buf st r, good orc b h tab u ->
  process_instruction alloc_all buf (abs st tab u) = Ret r ->
  exists r' h', process_instruction_h orc (ptrs b) buf st h = Ret (r', h') /\
    follows orc b (gives (process_instruction no_ref buf (abs st tab u))) r r' h'.
Proof.
  intros orc b h tab u buf st r G R. unfold process_instruction, process_instruction_h in *.
  cbn [ptrs p_symtab p_unres]. rewrite (good_symtab _ _ _ _ _ G). cbn [bind].
  cbn [abs st_symtab st_unresolved st_pc st_line_num st_written st_total st_out st_lexer st_tk st_instr st_stdout] in R.
  apply bind_ret in R. destruct R as (op & E1 & R). rewrite E1. cbn [bind].
  apply bind_ret in R. destruct R as ([[os lx1] out1] & E2 & R). rewrite E2. cbn [bind].
  cbv zeta in R. cbv zeta.
  destruct (IS_ERROR os) eqn:EOS.
  { injection R as <-. eexists _, _. split; [reflexivity|]. left. exists tab, u. split; [reflexivity|exact G]. }
  apply bind_ret in R. destruct R as ([[rc ins2] out2] & E3 & R). rewrite E3. cbn [bind].
  set (w1 := if os =? BRANCH_FORWARD_REFERENCE then 2 else if os =? JUMP_FORWARD_REFERENCE then 3 else m_written st) in *.
  apply bind_ret in R. destruct R as (pending & E4 & R).
  match goal with |- context [bind ?m _] =>
    assert (X : exists pd' h1, m = Ret (pd', h1) /\
      ((exists u', good orc b h1 tab u' /\ pending = option_map (fun f => (u', f)) pd' /\ (pd' = None -> u' = u)) \/
       (pd' = None /\ spoiled orc b h1 /\ exists i tok, rc =? FORWARD_REFERENCE = true /\ op = Some i /\ get (lx_seq lx1) i = Ret tok))) end.
  { destruct (rc =? FORWARD_REFERENCE).
    - destruct op as [i|]; [|discriminate].
      apply bind_ret in E4. destruct E4 as (tok & F1 & E4). rewrite F1. cbn [bind].
      apply bind_ret in E4. destruct E4 as (oref & F2 & E4). cbn [alloc_all ok_ref ok_grow] in F2, E4.
      destruct oref as [ref|].
      2:{ exfalso. unfold create_forward_ref in F2. cbn [negb] in F2. apply bind_ret in F2.
          destruct F2 as (? & _ & F2). destruct (tk_loc tok); discriminate. }
      apply bind_ret in E4. destruct E4 as ([c u1] & F3 & E4).
      destruct (good_ref _ _ _ _ _ _ _ _ _ _ _ _ _ _ G F2 F3) as (p & h1 & -> & [(-> & S)|(NP & c' & h2 & EA & Y)]);
        cbn [bind is_null].
      + eexists _, _. split; [reflexivity|]. right. eauto 8.
      + rewrite NP. cbv iota. rewrite EA. cbn [bind]. destruct Y as [(-> & G')|(-> & S)].
        * rewrite (add_code _ _ _ _ F3) in *. change (IS_ERROR FORWARD_REFERENCE_INSERTION_SUCCESS) with false in *.
          injection E4 as <-. eexists _, _. split; [reflexivity|]. left. exists u1.
          split; [exact G'|]. split; [reflexivity|discriminate].
        * rewrite fail_is_error. eexists _, _. split; [reflexivity|]. right. eauto 8.
    - destruct (IS_ERROR rc); injection E4 as <-; eexists _, _; (split; [reflexivity|]); left; exists u; auto. }
  destruct X as (pd' & h1 & E5 & X). rewrite E5. cbn [bind]. clear E4 E5.
  destruct X as [(u' & G' & -> & NU)|(-> & S & i & tok & Erc & -> & Etok)].
  2:{ eexists _, _. split; [reflexivity|]. right. eexists. split; [reflexivity|]. split; [exact S|].
      unfold gives. cbn [abs st_symtab st_unresolved st_pc st_line_num st_written st_total st_out st_lexer st_tk st_instr st_stdout].
      rewrite E1. cbn [bind]. rewrite E2. cbn [bind]. rewrite EOS. cbv iota zeta. rewrite E3. cbn [bind]. rewrite Erc, Etok. cbn [bind no_ref ok_ref create_forward_ref negb].
      eexists. split; [reflexivity|]. split; reflexivity. }
  destruct pd' as [f|]; cbn [option_map] in R.
  2:{ injection R as <-. eexists _, _. split; [reflexivity|]. left.
      rewrite (NU eq_refl) in G'. exists tab, u. split; [reflexivity|exact G']. }
  apply bind_ret in R. destruct R as ([[[[wb f3] lx3] i3] out3] & E6 & R). rewrite E6. cbn [bind].
  destruct (IS_ERROR wb).
  { injection R as <-. eexists _, _. split; [reflexivity|]. left. exists tab, u'. split; [reflexivity|exact G']. }
  apply bind_ret in R. destruct R as (n1 & E7 & R). apply bind_ret in R. destruct R as (n2 & E8 & R).
  apply bind_ret in R. destruct R as (n3 & E9 & R). injection R as <-.
  rewrite E7. cbn [bind]. rewrite E8. cbn [bind]. rewrite E9. cbn [bind].
  eexists _, _. split; [reflexivity|]. left. exists tab, u'. split; [reflexivity|exact G'].
Qed.

Lemma line_h : forall orc b h tab u buf st r, good orc b h tab u ->
  process_line alloc_all buf (abs st tab u) = Ret r ->
  exists r' h', process_line_h orc (ptrs b) buf st h = Ret (r', h') /\
    follows orc b (fun s => exists e, gives (process_line e buf (abs st tab u)) s) r r' h'.
Proof.
  intros orc b h tab u buf st r G R. unfold process_line, process_line_h in *.
  rewrite (good_touch _ _ _ _ _ G). cbn [bind].
  cbn [abs st_symtab st_unresolved st_pc st_line_num st_written st_total st_out st_lexer st_tk st_instr st_stdout] in R.
  apply bind_ret in R. destruct R as ([[[[rc lx1] tk1] i1] out1] & E1 & R). rewrite E1. cbn [bind].
  cbv zeta in R. cbv zeta.
  destruct (IS_ERROR rc) eqn:ERC.
  { injection R as <-. eexists _, _. split; [reflexivity|]. left. exists tab, u. split; [reflexivity|exact G]. }
  apply bind_ret in R. destruct R as ([[rc2 lx2] out2] & E2 & R). rewrite E2. cbn [bind].
  destruct (IS_ERROR rc2) eqn:ERC2.
  { injection R as <-. eexists _, _. split; [reflexivity|]. left. exists tab, u. split; [reflexivity|exact G]. }
  apply bind_ret in R. destruct R as (first & E3 & R). rewrite E3. cbn [bind].
  assert (Rest : forall h0 tab0 st0 r0, good orc b h0 tab0 u ->
    match i_mnemonic i1 with
    | NULL_MNEMONIC =>
        line_num <- int_of (m_line_num st0 + 1) ;;
        Ret (Next (mkSt tab0 u (m_pc st0) line_num (m_written st0) (m_total st0) (m_out st0) (m_lexer st0)
                        (m_tk st0) (m_instr st0) (m_stdout st0)))
    | _ => process_instruction alloc_all buf (abs st0 tab0 u)
    end = Ret r0 ->
    exists r' h',
    match i_mnemonic i1 with
    | NULL_MNEMONIC =>
        line_num <- int_of (m_line_num st0 + 1) ;;
        Ret (NextH (mkStH (m_pc st0) line_num (m_written st0) (m_total st0) (m_out st0) (m_lexer st0)
                         (m_tk st0) (m_instr st0) (m_stdout st0)), h0)
    | _ => process_instruction_h orc (ptrs b) buf st0 h0
    end = Ret (r', h') /\ follows orc b (gives (match i_mnemonic i1 with
    | NULL_MNEMONIC =>
        line_num <- int_of (m_line_num st0 + 1) ;;
        Ret (Next (mkSt tab0 u (m_pc st0) line_num (m_written st0) (m_total st0) (m_out st0) (m_lexer st0)
                        (m_tk st0) (m_instr st0) (m_stdout st0)))
    | _ => process_instruction no_ref buf (abs st0 tab0 u)
    end)) r0 r' h').
  { intros h0 tab0 st0 r0 G0 R0. destruct (i_mnemonic i1); try (eapply instruction_h; eassumption).
    apply bind_ret in R0. destruct R0 as (n & E & R0). injection R0 as <-. rewrite E. cbn [bind].
    eexists _, _. split; [reflexivity|]. left. exists tab0, u. split; [reflexivity|exact G0]. }
  assert (Dec : forall r0,
    ('(code, lexer3, symtab3, out3) <- parse_label_declaration true true lx2 tab (m_pc st) ;;
     if IS_ERROR code then
       Ret (Abort (mkSt symtab3 u (m_pc st) (m_line_num st) (m_written st) (m_total st) (m_out st) lexer3 tk1 i1
                        (m_stdout st ++ out1 ++ out2 ++ out3)))
     else match i_mnemonic i1 with
          | NULL_MNEMONIC =>
            line_num <- int_of (m_line_num st + 1) ;;
            Ret (Next (mkSt symtab3 u (m_pc st) line_num (m_written st) (m_total st) (m_out st) lexer3
                        tk1 i1 (m_stdout st ++ out1 ++ out2 ++ out3)))
          | _ => process_instruction alloc_all buf
                  (mkSt symtab3 u (m_pc st) (m_line_num st) (m_written st) (m_total st) (m_out st) lexer3 tk1 i1
                        (m_stdout st ++ out1 ++ out2 ++ out3))
          end) = Ret r0 ->
    exists r' h',
    ('(code, lexer3, h3, out3) <- parse_label_declaration_h orc h (Some (w_symtab b)) lx2 (m_pc st) ;;
     if IS_ERROR code then
       Ret (AbortH (mkStH (m_pc st) (m_line_num st) (m_written st) (m_total st) (m_out st) lexer3 tk1 i1
                        (m_stdout st ++ out1 ++ out2 ++ out3)), h3)
     else match i_mnemonic i1 with
          | NULL_MNEMONIC =>
            line_num <- int_of (m_line_num st + 1) ;;
            Ret (NextH (mkStH (m_pc st) line_num (m_written st) (m_total st) (m_out st) lexer3
                        tk1 i1 (m_stdout st ++ out1 ++ out2 ++ out3)), h3)
          | _ => process_instruction_h orc (ptrs b) buf
                  (mkStH (m_pc st) (m_line_num st) (m_written st) (m_total st) (m_out st) lexer3 tk1 i1
                        (m_stdout st ++ out1 ++ out2 ++ out3)) h3
          end) = Ret (r', h') /\ follows orc b (fun s => exists e, gives ('(code, lexer3, symtab3, out3) <- parse_label_declaration (ok_resize e) (ok_symbol e) lx2 tab (m_pc st) ;;
     if IS_ERROR code then
       Ret (Abort (mkSt symtab3 u (m_pc st) (m_line_num st) (m_written st) (m_total st) (m_out st) lexer3 tk1 i1
                        (m_stdout st ++ out1 ++ out2 ++ out3)))
     else match i_mnemonic i1 with
          | NULL_MNEMONIC =>
            line_num <- int_of (m_line_num st + 1) ;;
            Ret (Next (mkSt symtab3 u (m_pc st) line_num (m_written st) (m_total st) (m_out st) lexer3
                        tk1 i1 (m_stdout st ++ out1 ++ out2 ++ out3)))
          | _ => process_instruction e buf
                  (mkSt symtab3 u (m_pc st) (m_line_num st) (m_written st) (m_total st) (m_out st) lexer3 tk1 i1
                        (m_stdout st ++ out1 ++ out2 ++ out3))
          end) s) r0 r' h').
  { intros r0 R0. apply bind_ret in R0. destruct R0 as ([[[c lx3] tab3] out3] & E & R0).
    destruct (good_declaration _ _ _ _ _ _ _ _ _ _ _ G E) as (c' & lx' & h' & out' & -> & X). cbn [bind].
    destruct X as [(-> & -> & -> & G')|(-> & S & tab' & ED)].
    - destruct (IS_ERROR c) eqn:EC.
      + injection R0 as <-. eexists _, _. split; [reflexivity|]. left. exists tab3, u. split; [reflexivity|exact G'].
      + destruct (Rest h' tab3 (mkStH (m_pc st) (m_line_num st) (m_written st) (m_total st) (m_out st) lx3 tk1 i1
                        (m_stdout st ++ out1 ++ out2 ++ out3)) r0 G' R0) as (r' & h2 & E4 & F).
        exists r', h2. split; [exact E4|]. destruct F as [F|(s & -> & S & F)]; [left; exact F|right].
        exists s. split; [reflexivity|]. split; [exact S|]. exists no_ref. cbn [ok_resize ok_symbol no_ref]. rewrite E. cbn [bind]. rewrite EC. exact F.
    - rewrite fail_is_error. eexists _, _. split; [reflexivity|]. right. eexists. split; [reflexivity|]. split; [exact S|].
      exists no_symbol. cbn [ok_resize ok_symbol no_symbol]. rewrite ED. cbn [bind]. rewrite fail_is_error. eexists. split; [reflexivity|]. split; reflexivity. }
  destruct (tk_type first) eqn:ET;
    try (destruct (Dec r R) as (r' & h' & E4 & F); exists r', h'; split; [exact E4|];
         destruct F as [F|(s & -> & S & e & F)]; [left; exact F|right]; exists s; split; [reflexivity|]; split; [exact S|]; exists e;
         cbn [abs st_symtab st_unresolved st_pc st_line_num st_written st_total st_out st_lexer st_tk st_instr st_stdout];
         rewrite E1; cbn [bind]; rewrite ERC, E2; cbn [bind]; rewrite ERC2, E3; cbn [bind]; rewrite ET; exact F);
    try (destruct (Rest h tab (mkStH (m_pc st) (m_line_num st) (m_written st) (m_total st) (m_out st) lx2 tk1 i1
                        (m_stdout st ++ out1 ++ out2)) r G R) as (r' & h' & E4 & F); exists r', h'; split; [exact E4|];
         destruct F as [F|(s & -> & S & F)]; [left; exact F|right]; exists s; split; [reflexivity|]; split; [exact S|]; exists no_ref;
         cbn [abs st_symtab st_unresolved st_pc st_line_num st_written st_total st_out st_lexer st_tk st_instr st_stdout];
         rewrite E1; cbn [bind]; rewrite ERC, E2; cbn [bind]; rewrite ERC2, E3; cbn [bind]; rewrite ET; exact F);
    try (destruct (Rest h tab (mkStH (tk_value first) (m_line_num st) (m_written st) (m_total st) (m_out st) lx2 tk1 i1
                        (m_stdout st ++ out1 ++ out2)) r G R) as (r' & h' & E4 & F); exists r', h'; split; [exact E4|];
         destruct F as [F|(s & -> & S & F)]; [left; exact F|right]; exists s; split; [reflexivity|]; split; [exact S|]; exists no_ref;
         cbn [abs st_symtab st_unresolved st_pc st_line_num st_written st_total st_out st_lexer st_tk st_instr st_stdout];
         rewrite E1; cbn [bind]; rewrite ERC, E2; cbn [bind]; rewrite ERC2, E3; cbn [bind]; rewrite ET; exact F).
  injection R as <-. eexists _, _. split; [reflexivity|]. left. exists tab, u. split; [reflexivity|exact G].
Qed.

(** the lines are numbered *)
Lemma instruction_num : forall e buf st st', process_instruction e buf st = Ret (Next st') -> st_line_num st' = st_line_num st + 1.
Proof.
  intros e buf st st' H. unfold process_instruction in H.
  apply bind_ret in H. destruct H as (op & _ & H). apply bind_ret in H. destruct H as ([[os lx1] out1] & _ & H). cbv zeta in H.
  destruct (IS_ERROR os); [discriminate|]. apply bind_ret in H. destruct H as ([[rc i2] out2] & _ & H).
  apply bind_ret in H. destruct H as (pd & _ & H). destruct pd as [[u f]|]; [|discriminate].
  apply bind_ret in H. destruct H as ([[[[wb f3] lx3] i3] out3] & _ & H). destruct (IS_ERROR wb); [discriminate|].
  apply bind_ret in H. destruct H as (n1 & E & H). apply bind_ret in H. destruct H as (n2 & _ & H). apply bind_ret in H. destruct H as (n3 & _ & H).
  injection H as <-. cbn. unfold int_of in E. destruct (in_range _ _ _) in E; congruence.
Qed.

Lemma line_num : forall e buf st st', process_line e buf st = Ret (Next st') -> st_line_num st' = st_line_num st + 1.
Proof.
  intros e buf st st' H. unfold process_line in H.
  apply bind_ret in H. destruct H as ([[[[rc lx1] tk1] i1] out1] & _ & H). cbv zeta in H. destruct (IS_ERROR rc); [discriminate|].
  apply bind_ret in H. destruct H as ([[rc2 lx2] out2] & _ & H). destruct (IS_ERROR rc2); [discriminate|].
  apply bind_ret in H. destruct H as (first & _ & H).
  assert (Rest : forall st1, match i_mnemonic i1 with
      | NULL_MNEMONIC =>
          line_num <- int_of (st_line_num st1 + 1) ;;
          Ret (Next (mkSt (st_symtab st1) (st_unresolved st1) (st_pc st1) line_num
                          (st_written st1) (st_total st1) (st_out st1) (st_lexer st1)
                          (st_tk st1) (st_instr st1) (st_stdout st1)))
      | _ => process_instruction e buf st1
      end = Ret (Next st') -> st_line_num st' = st_line_num st1 + 1).
  { intros st1 K. destruct (i_mnemonic i1); try (eapply instruction_num; exact K).
    apply bind_ret in K. destruct K as (n & E & K). injection K as <-. cbn. unfold int_of in E. destruct (in_range _ _ _) in E; congruence. }
  destruct (tk_type first); try discriminate; try exact (Rest _ H);
    (apply bind_ret in H; destruct H as ([[[c lx3] tab3] out3] & _ & H); destruct (IS_ERROR c); [discriminate|]; exact (Rest _ H)).
Qed.

Lemma run_agree : forall e1 e2 lines st, (forall n, st_line_num st <= n -> e1 n = e2 n) -> run_lines e1 lines st = run_lines e2 lines st.
Proof.
  intros e1 e2. induction lines as [|l lines IH]; intros st A; cbn [run_lines]; [reflexivity|]. rewrite (A _ (Z.le_refl _)).
  destruct (process_line (e2 (st_line_num st)) (cstring l) st) as [[s|s|s]|x|] eqn:E; cbn [bind]; try reflexivity.
  apply IH. intros n Hn. apply A. apply line_num in E. lia.
Qed.

Lemma run_h : forall orc b lines st h tab u r, good orc b h tab u ->
  run_lines no_failure lines (abs st tab u) = Ret r ->
  exists r' h', run_lines_h orc (ptrs b) lines st h = Ret (r', h') /\
    follows orc b (fun s => exists env, gives (run_lines env lines (abs st tab u)) s) r r' h'.
Proof.
  intros orc b. induction lines as [|l lines IH]; intros st h tab u r G R; cbn [run_lines run_lines_h] in *.
  - injection R as <-. eexists _, _. split; [reflexivity|]. left. exists tab, u. split; [reflexivity|exact G].
  - apply bind_ret in R. destruct R as (r1 & E & R). unfold no_failure at 1 in E.
    destruct (line_h _ _ _ _ _ _ _ _ G E) as (r1' & h1 & -> & X). cbn [bind].
    destruct X as [(tab1 & u1 & -> & G1)|(s & -> & S & e & K)].
    + destruct r1' as [s|s|s]; cbn [absres] in R.
      * destruct (IH _ _ _ _ _ G1 R) as (r' & h' & E2 & F). exists r', h'. split; [exact E2|].
        destruct F as [F|(s2 & -> & S & env & K)]; [left; exact F|right]. exists s2. split; [reflexivity|]. split; [exact S|].
        exists (fun n => if n =? m_line_num st then alloc_all else env n). cbn [abs st_line_num] in *. rewrite Z.eqb_refl.
        cbn [absres] in E. rewrite E. cbn [bind].
        rewrite (run_agree _ env); [exact K|]. intros n Hn. apply line_num in E. cbn [abs st_line_num] in E, Hn.
        destruct (Z.eqb_spec n (m_line_num st)); [lia|reflexivity].
      * injection R as <-. eexists _, _. split; [reflexivity|]. left. exists tab1, u1. split; [reflexivity|exact G1].
      * injection R as <-. eexists _, _. split; [reflexivity|]. left. exists tab1, u1. split; [reflexivity|exact G1].
    + eexists _, _. split; [reflexivity|]. right. exists s. split; [reflexivity|]. split; [exact S|]. exists (fun _ => e).
      destruct K as (st2 & K & K1 & K2). rewrite K. cbn [bind]. exists st2. auto.
Qed.

Lemma good_get_ref : forall orc b h tab u i ref, good orc b h tab u ->
  get (un_refs u) i = Ret (Some ref) ->
  exists refs curr size l rp, load_unres h (Some (w_unres b)) = Ret (refs, curr, size) /\
    load_array h refs = Ret l /\ get l i = Ret rp /\ read_ref h rp = Ret ref.
Proof.
  intros orc b h tab u i ref (L & ss & gs & size & count & us & rs & m & -> & -> & Lg & Hm & H) R.
  cbn [unres un_refs] in R. unfold get in R. destruct (Z.ltb_spec i 0) as [?|I0]; [discriminate|].
  destruct (nth_error (map pref_val rs ++ repeat None m) (Z.to_nat i)) as [o|] eqn:N; [|discriminate].
  injection R as ->.
  assert (exists g, nth_error rs (Z.to_nat i) = Some g /\ f_ref g = ref) as (g & Ng & <-).
  { destruct (Nat.lt_ge_cases (Z.to_nat i) (List.length rs)) as [Lt|Ge].
    - rewrite nth_error_app1, nth_error_map in N by (rewrite map_length; exact Lt).
      destruct (nth_error rs (Z.to_nat i)) as [g|]; [|discriminate]. injection N as N. eauto.
    - rewrite nth_error_app2 in N by (rewrite map_length; exact Ge).
      apply nth_error_In in N. apply repeat_spec in N. discriminate. }
  assert (J : forall x, In x (unres_cells (w_unres b) us rs m) ->
    In x (table_cells (w_symtab b) ss gs size count ++ unres_cells (w_unres b) us rs m ++ base_cells b)).
  { intros x I. apply in_or_app. right. apply in_or_app. left. exact I. }
  exists (Some us), (Z.of_nat (List.length rs)), (size_of rs m), (map pref_ptr rs ++ repeat None m), (Some (f_addr g)).
  split; [|split; [|split]].
  - unfold load_unres. rewrite (load_spec h _ _ _ H (J _ (or_introl eq_refl))). reflexivity.
  - unfold load_array. rewrite (load_spec h _ _ _ H (J _ (or_intror (or_introl eq_refl)))). reflexivity.
  - unfold get. destruct (Z.ltb_spec i 0); [lia|].
    rewrite nth_error_app1 by (rewrite map_length; apply nth_error_Some; congruence).
    rewrite nth_error_map, Ng. reflexivity.
  - eapply read_ref_spec; [exact H|]. intros x I. apply J. right. right. apply in_flat_map. exists g.
    split; [eapply nth_error_In; exact Ng|exact I].
Qed.

Lemma resolve_h : forall orc b file n i st h tab u r, good orc b h tab u ->
  resolve_all file n i (abs st tab u) = Ret r ->
  exists r', resolve_all_h file (ptrs b) n i st h = Ret r' /\ r = absres r' tab u.
Proof.
  intros orc b file. induction n as [|n IH]; intros i st h tab u r G R; cbn [resolve_all resolve_all_h] in *.
  - injection R as <-. eexists. split; reflexivity.
  - rewrite (good_touch _ _ _ _ _ G). cbn [bind].
    apply bind_ret in R. destruct R as (oref & E & R). destruct oref as [ref|]; [|discriminate].
    cbn [abs st_unresolved] in E.
    destruct (good_get_ref _ _ _ _ _ _ _ G E) as (refs & curr & size & l & rp & E1 & E2 & E3 & E4).
    cbn [ptrs p_unres p_symtab]. rewrite E1. cbn [bind]. rewrite E2. cbn [bind]. rewrite E3. cbn [bind].
    rewrite E4. cbn [bind]. rewrite (good_symtab _ _ _ _ _ G). cbn [bind].
    apply bind_ret in R. destruct R as (d & E5 & R). cbn [abs st_symtab] in E5. rewrite E5. cbn [bind].
    destruct (IS_ERROR d).
    + apply bind_ret in R. destruct R as (out & E6 & R). rewrite E6. cbn [bind]. injection R as <-.
      eexists. split; reflexivity.
    + apply bind_ret in R. destruct R as ([[wb f] out] & E6 & R). cbn [abs st_out st_lexer] in E6.
      rewrite E6. cbn [bind]. cbv zeta in *. destruct (IS_ERROR wb).
      * injection R as <-. eexists. split; reflexivity.
      * eapply (IH (i + 1) (m_set_out st f out) h tab u r G). exact R.
Qed.

(** ** The end *)
Lemma abort_good : forall orc b h tab u, good orc b h tab u ->
  exists h', abort_gaia_h h (ptrs b) = Ret h' /\ heap_is orc false h' [].
Proof.
  intros orc b h tab u (L & ss & gs & size & count & us & rs & m & -> & -> & Lg & Hm & H).
  unfold abort_gaia_h. cbn [ptrs p_inf p_outf p_lexer p_tk p_instr p_symtab p_unres is_null].
  unfold base_cells in H. set (p1 := table_cells _ _ _ _ _) in *. set (p2 := unres_cells _ _ _ _) in *.
  set (p3 := lexer_cells _ _ _) in *. set (p4 := tok_cells _) in *.
  destruct (fclose_at h _ (w_inf b) ((w_outf b, CFile) :: p1 ++ p2 ++ p3 ++ p4 ++ [(w_instr b, CInstr)]) H)
    as (h1 & -> & H1); [perm|]. cbn [bind].
  destruct (fclose_at h1 _ (w_outf b) (p1 ++ p2 ++ p3 ++ p4 ++ [(w_instr b, CInstr)]) H1)
    as (h2 & -> & H2); [reflexivity|]. cbn [bind].
  destruct (destroy_lexer_spec h2 _ (w_lexer b) (w_seq b) (w_toks b) (p1 ++ p2 ++ p4 ++ [(w_instr b, CInstr)]) H2 L)
    as (h3 & -> & H3); [fold p3; perm|]. cbn [bind].
  destruct (destroy_token_spec h3 _ (w_tk b) (p1 ++ p2 ++ [(w_instr b, CInstr)]) H3) as (h4 & -> & H4);
    [fold p4; perm|]. cbn [bind].
  destruct (destroy_instruction_spec h4 _ (w_instr b) (p1 ++ p2) H4) as (h5 & -> & H5); [perm|]. cbn [bind].
  destruct (destroy_symtab_spec h5 _ (w_symtab b) ss gs size count p2 H5 Lg) as (h6 & -> & H6); [reflexivity|].
  cbn [bind].
  destruct (destroy_unres_spec h6 _ (w_unres b) us rs m [] H6 Hm) as (h7 & -> & H7); [rewrite app_nil_r; reflexivity|].
  eauto.
Qed.
Lemma finish_abort : forall h b, finish_h h (ptrs b) = abort_gaia_h h (ptrs b).
Proof. reflexivity. Qed.

Lemma abort_spoiled : forall orc b h, spoiled orc b h ->
  exists h' leak, abort_gaia_h h (ptrs b) = Ret h' /\ nofile leak /\ heap_is orc true h' leak.
Proof.
  intros orc b h (L & ss & gs & size & count & us & leak & Lg & NF & HU & H).
  unfold abort_gaia_h. cbn [ptrs p_inf p_outf p_lexer p_tk p_instr p_symtab p_unres is_null].
  unfold base_cells in H. set (p1 := table_cells _ _ _ _ _) in *.
  set (p3 := lexer_cells _ _ _) in *. set (p4 := tok_cells _) in *.
  destruct (fclose_at h _ (w_inf b) ((w_outf b, CFile) :: p1 ++ us ++ p3 ++ p4 ++ [(w_instr b, CInstr)] ++ leak) H)
    as (h1 & -> & H1); [perm|]. cbn [bind].
  destruct (fclose_at h1 _ (w_outf b) (p1 ++ us ++ p3 ++ p4 ++ [(w_instr b, CInstr)] ++ leak) H1)
    as (h2 & -> & H2); [reflexivity|]. cbn [bind].
  destruct (destroy_lexer_spec h2 _ (w_lexer b) (w_seq b) (w_toks b) (p1 ++ us ++ p4 ++ [(w_instr b, CInstr)] ++ leak) H2 L)
    as (h3 & -> & H3); [fold p3; perm|]. cbn [bind].
  destruct (destroy_token_spec h3 _ (w_tk b) (p1 ++ us ++ [(w_instr b, CInstr)] ++ leak) H3) as (h4 & -> & H4);
    [fold p4; perm|]. cbn [bind].
  destruct (destroy_instruction_spec h4 _ (w_instr b) (p1 ++ us ++ leak) H4) as (h5 & -> & H5); [perm|]. cbn [bind].
  destruct (destroy_symtab_spec h5 _ (w_symtab b) ss gs size count (us ++ leak) H5 Lg) as (h6 & -> & H6); [reflexivity|].
  cbn [bind]. destruct HU as [(s & rs & m & Hm & ->)|(k & n & ->)].
  - destruct (destroy_unres_spec h6 _ (w_unres b) s rs m leak H6 Hm) as (h7 & -> & H7); [reflexivity|]. eauto.
  - rewrite (destroy_unres_broken h6 _ (w_unres b) k n leak H6) by reflexivity.
    exists h6, ((w_unres b, CUnres None k n) :: leak). split; [reflexivity|]. split; [|exact H6].
    constructor; [discriminate|exact NF].
Qed.

Lemma good_curr : forall orc b h tab u, good orc b h tab u ->
  exists refs size, load_unres h (Some (w_unres b)) = Ret (refs, un_curr u, size).
Proof.
  intros orc b h tab u (L & ss & gs & size & count & us & rs & m & -> & -> & Lg & Hm & H).
  eexists _, _. unfold load_unres.
  rewrite (load_spec h _ (w_unres b) (CUnres (Some us) (Z.of_nat (List.length rs)) (size_of rs m)) H)
    by (apply in_or_app; right; apply in_or_app; left; left; reflexivity).
  reflexivity.
Qed.

Lemma assemble_h_spec : forall orc b file src h o, good orc b h init_symbol_table init_unresolved ->
  gaia file src = Ret o ->
  exists o' h', assemble_h orc (ptrs b) file src h = Ret (o', h') /\
   ((o' = o /\ heap_is orc false h' []) \/
    (exit_code o' = EXIT_FAILURE /\ (exists env, assemble env file src = Ret o') /\ exists leak, nofile leak /\ heap_is orc true h' leak)).
Proof.
  intros orc b file src h o G R. unfold gaia, assemble, assemble_h in *.
  apply bind_ret in R. destruct R as (r & E & R). change (init_state file) with
    (abs (init_state_h file) init_symbol_table init_unresolved) in E.
  destruct (run_h _ _ _ _ _ _ _ _ G E) as (r' & h1 & -> & X). cbn [bind].
  destruct X as [(tab & u & -> & G1)|(s & -> & S & env & st2 & K & K1 & K2)].
  2:{ destruct (abort_spoiled _ _ _ S) as (h' & leak & -> & NF & H'). cbn [bind].
      eexists _, _. split; [reflexivity|]. right. split; [reflexivity|]. split; [|eauto].
      exists env. change (init_state file) with (abs (init_state_h file) init_symbol_table init_unresolved). rewrite K. cbn [bind]. rewrite K1, K2. reflexivity. }
  assert (Go : forall s,
    (r2 <- resolve_all file (Z.to_nat (un_curr u)) 0 (abs s tab u) ;;
     match r2 with
     | Abort st2 => Ret (mkOutcome EXIT_FAILURE (st_stdout st2) (of_data (st_out st2)))
     | Next st2 | Finish st2 =>
       Ret (mkOutcome EXIT_SUCCESS (st_stdout st2 ++ summary (st_total st2) (tab_count (st_symtab st2)))
                      (of_data (st_out st2)))
     end) = Ret o ->
    exists h',
    ('(_, curr, _) <- load_unres h1 (p_unres (ptrs b)) ;;
     r2 <- resolve_all_h file (ptrs b) (Z.to_nat curr) 0 s h1 ;;
     match r2 with
     | AbortH st2 => h2 <- abort_gaia_h h1 (ptrs b) ;;
       Ret (mkOutcome EXIT_FAILURE (m_stdout st2) (of_data (m_out st2)), h2)
     | NextH st2 | FinishH st2 =>
       tab <- read_symtab h1 (p_symtab (ptrs b)) ;;
       h2 <- finish_h h1 (ptrs b) ;;
       Ret (mkOutcome EXIT_SUCCESS (m_stdout st2 ++ summary (m_total st2) (tab_count tab))
                      (of_data (m_out st2)), h2)
     end) = Ret (o, h') /\ heap_is orc false h' []).
  { intros s R1. change (p_unres (ptrs b)) with (Some (w_unres b)).
    change (p_symtab (ptrs b)) with (Some (w_symtab b)). destruct (good_curr _ _ _ _ _ G1) as (refs & size & ->). cbn [bind].
    apply bind_ret in R1. destruct R1 as (r2 & E2 & R1).
    destruct (resolve_h _ _ _ _ _ _ _ _ _ _ G1 E2) as (r2' & -> & ->). cbn [bind].
    rewrite finish_abort. destruct (abort_good _ _ _ _ _ G1) as (h2 & -> & H2).
    destruct r2' as [s2|s2|s2]; cbn [absres] in R1; injection R1 as <-.
    1,2: rewrite (good_symtab _ _ _ _ _ G1); cbn [bind].
    all: eexists; split; [reflexivity|exact H2]. }
  destruct r' as [s|s|s]; cbn [absres] in R; cbv zeta.
  - destruct (Go s R) as (h' & E' & H'). exists o, h'. split; [exact E'|]. auto.
  - destruct (Go s R) as (h' & E' & H'). exists o, h'. split; [exact E'|]. auto.
  - destruct (abort_good _ _ _ _ _ G1) as (h2 & -> & H2). cbn [bind]. injection R as <-.
    eexists _, _. split; [reflexivity|]. left. split; [reflexivity|exact H2].
Qed.

(** ** src/main.c:152-176: some of the structs may be missing *)
Definition has (P : nat -> list block -> Prop) (p : ptr) (c : list block) : Prop :=
  match p with None => c = [] | Some a => P a c end.
Definition is_file (a : nat) (c : list block) : Prop := c = [(a, CFile)].
Definition is_lexer (a : nat) (c : list block) : Prop :=
  exists s toks, List.length toks = 8%nat /\ c = lexer_cells a s toks.
Definition is_token (a : nat) (c : list block) : Prop := exists s, c = tok_cells (a, s).
Definition is_instr (a : nat) (c : list block) : Prop := c = [(a, CInstr)].
Definition is_symtab (a : nat) (c : list block) : Prop := exists s, c = table_cells a s (repeat None 17) 17 0.
Definition is_unres (a : nat) (c : list block) : Prop := exists s, c = unres_cells a s [] 8.

Lemma abort_early : forall orc w h inf lx tk ins tab un c0 c1 c2 c3 c4 c5 leak,
  heap_is orc w h (c0 ++ c1 ++ c2 ++ c3 ++ c4 ++ c5 ++ leak) ->
  has is_file inf c0 -> has is_lexer lx c1 -> has is_token tk c2 -> has is_instr ins c3 ->
  has is_symtab tab c4 -> has is_unres un c5 ->
  exists h', abort_gaia_h h (mkPtrs inf None lx tk ins tab un) = Ret h' /\ heap_is orc w h' leak.
Proof.
  intros orc w h inf lx tk ins tab un c0 c1 c2 c3 c4 c5 leak H I0 I1 I2 I3 I4 I5.
  unfold abort_gaia_h. cbn [p_inf p_outf p_lexer p_tk p_instr p_symtab p_unres].
  assert (X0 : exists h0, (if is_null inf then Ret h else fclose h inf) = Ret h0 /\
    heap_is orc w h0 (c1 ++ c2 ++ c3 ++ c4 ++ c5 ++ leak)).
  { destruct inf as [a|]; cbn [has is_null] in *.
    - unfold is_file in I0. subst c0. eapply fclose_at; [exact H|reflexivity].
    - subst c0. eauto. }
  destruct X0 as (h0 & -> & H0). cbn [bind is_null].
  assert (X1 : exists h1, (if is_null lx then Ret h0 else destroy_lexer_h h0 lx) = Ret h1 /\
    heap_is orc w h1 (c2 ++ c3 ++ c4 ++ c5 ++ leak)).
  { destruct lx as [a|]; cbn [has is_null] in *.
    - destruct I1 as (s & toks & L & ->). eapply destroy_lexer_spec; [exact H0|exact L|reflexivity].
    - subst c1. eauto. }
  destruct X1 as (h1 & -> & H1). cbn [bind].
  assert (X2 : exists h2, (if is_null tk then Ret h1 else destroy_token_h h1 tk) = Ret h2 /\
    heap_is orc w h2 (c3 ++ c4 ++ c5 ++ leak)).
  { destruct tk as [a|]; cbn [has is_null] in *.
    - destruct I2 as (s & ->). exact (destroy_token_spec _ _ (a, s) _ H1 (Permutation_refl _)).
    - subst c2. eauto. }
  destruct X2 as (h2 & -> & H2). cbn [bind].
  assert (X3 : exists h3, (if is_null ins then Ret h2 else destroy_instruction_h h2 ins) = Ret h3 /\
    heap_is orc w h3 (c4 ++ c5 ++ leak)).
  { destruct ins as [a|]; cbn [has is_null] in *.
    - unfold is_instr in I3. subst c3. eapply destroy_instruction_spec; [exact H2|reflexivity].
    - subst c3. eauto. }
  destruct X3 as (h3 & -> & H3). cbn [bind].
  assert (X4 : exists h4, (if is_null tab then Ret h3 else destroy_symbol_table_h h3 tab) = Ret h4 /\
    heap_is orc w h4 (c5 ++ leak)).
  { destruct tab as [a|]; cbn [has is_null] in *.
    - destruct I4 as (s & ->). exact (destroy_symtab_spec _ _ a s (repeat None 17) 17 0 _ H3 eq_refl (Permutation_refl _)).
    - subst c4. eauto. }
  destruct X4 as (h4 & -> & H4). cbn [bind].
  destruct un as [a|]; cbn [has is_null] in *.
  - destruct I5 as (s & ->). refine (destroy_unres_spec _ _ a s [] 8 _ H4 _ (Permutation_refl _)). lia.
  - subst c5. eauto.
Qed.

(** the five initialisations: all succeed, or an allocation failed *)
Definition made (P : nat -> list block -> Prop) (orc : Oracle) (w : bool) (l : list block) (p : ptr) (h : Heap) : Prop :=
  exists w' c leak, has P p c /\ nofile leak /\ heap_is orc w' h (c ++ l ++ leak) /\
    (w' = false -> leak = []) /\ w' = w || is_null p.

Lemma empty_is : forall orc, heap_is orc false empty_heap [].
Proof.
  intros orc. split; [split; [|split]; constructor|]. intros k K. cbn in K. lia.
Qed.

Lemma made_ok : forall (P : nat -> list block -> Prop) orc w l a c h, P a c -> heap_is orc w h (c ++ l) ->
  made P orc w l (Some a) h.
Proof.
  intros P orc w l a c h HP H. exists w, c, []. rewrite app_nil_r. cbn [has is_null].
  split; [exact HP|]. split; [constructor|]. split; [exact H|]. split; [auto|]. destruct w; reflexivity.
Qed.
Lemma made_none : forall (P : nat -> list block -> Prop) orc w l leak h, nofile leak ->
  heap_is orc true h (leak ++ l) -> made P orc w l None h.
Proof.
  intros P orc w l leak h NF H. exists true, [], leak. cbn [has is_null].
  split; [reflexivity|]. split; [exact NF|].
  split; [eapply heap_perm; [exact H|exact (Permutation_app_comm leak l)]|]. split; [discriminate|]. destruct w; reflexivity.
Qed.

Lemma lexer_made : forall orc w h l, heap_is orc w h l ->
  exists p h', init_lexer_h orc h = Ret (p, h') /\ made is_lexer orc w l p h'.
Proof.
  intros orc w h l H.
  destruct (init_lexer_spec orc h l H) as (p & h' & E & [(a & s & toks & -> & L & H')|(-> & leak & NF & H')]);
    rewrite E; eexists _, _; (split; [reflexivity|]).
  - eapply made_ok; [|exact H']. exists s, toks. auto.
  - eapply made_none; eassumption.
Qed.
Lemma token_made : forall orc w h l, heap_is orc w h l ->
  exists p h', init_token_h orc h = Ret (p, h') /\ made is_token orc w l p h'.
Proof.
  intros orc w h l H.
  destruct (init_token_spec orc h l H) as (p & h' & E & [([a s] & -> & H')|(-> & leak & NF & H')]);
    rewrite E; eexists _, _; (split; [reflexivity|]).
  - eapply made_ok; [|exact H']. exists s. reflexivity.
  - eapply made_none; eassumption.
Qed.
Lemma instruction_made : forall orc w h l, heap_is orc w h l ->
  exists p h', init_instruction_h orc h = Ret (p, h') /\ made is_instr orc w l p h'.
Proof.
  intros orc w h l H.
  destruct (init_instruction_spec orc h l H) as (p & h' & E & [(a & -> & H')|(-> & H')]);
    rewrite E; eexists _, _; (split; [reflexivity|]).
  - eapply made_ok; [|change ((a, CInstr) :: l) with ([(a, CInstr)] ++ l) in H'; exact H']. reflexivity.
  - eapply made_none; [|change l with ([] ++ l) in H'; exact H']. constructor.
Qed.
Lemma symtab_made : forall orc w h l, heap_is orc w h l ->
  exists p h', init_symbol_table_h orc h = Ret (p, h') /\ made is_symtab orc w l p h'.
Proof.
  intros orc w h l H.
  destruct (init_symtab_spec orc h l H) as (p & h' & E & [(a & s & -> & H')|(-> & leak & NF & H')]);
    rewrite E; eexists _, _; (split; [reflexivity|]).
  - eapply made_ok; [|exact H']. exists s. reflexivity.
  - eapply made_none; eassumption.
Qed.
Lemma unres_made : forall orc w h l, heap_is orc w h l ->
  exists p h', init_unresolved_h orc h = Ret (p, h') /\ made is_unres orc w l p h'.
Proof.
  intros orc w h l H.
  destruct (init_unres_spec orc h l H) as (p & h' & E & [(a & s & -> & H')|(-> & leak & NF & H')]);
    rewrite E; eexists _, _; (split; [reflexivity|]).
  - eapply made_ok; [|exact H']. exists s. reflexivity.
  - eapply made_none; eassumption.
Qed.

(** [src/main.c:154-158] *)
Lemma inits_spec : forall orc,
  exists lx tk ins tab un h1 h2 h3 h4 h5,
    init_lexer_h orc empty_heap = Ret (lx, h1) /\ init_token_h orc h1 = Ret (tk, h2) /\
    init_instruction_h orc h2 = Ret (ins, h3) /\ init_symbol_table_h orc h3 = Ret (tab, h4) /\
    init_unresolved_h orc h4 = Ret (un, h5) /\
    exists w c1 c2 c3 c4 c5 leak,
      has is_lexer lx c1 /\ has is_token tk c2 /\ has is_instr ins c3 /\ has is_symtab tab c4 /\
      has is_unres un c5 /\ nofile leak /\
      heap_is orc w h5 (c1 ++ c2 ++ c3 ++ c4 ++ c5 ++ leak) /\
      (is_null lx || is_null tk || is_null ins || is_null tab || is_null un = w) /\
      (w = false -> leak = []).
Proof.
  intros orc.
  destruct (lexer_made orc _ _ _ (empty_is orc)) as (lx & h1 & E1 & w1 & c1 & k1 & P1 & N1 & H1 & A1 & B1).
  destruct (token_made orc _ _ _ H1) as (tk & h2 & E2 & w2 & c2 & k2 & P2 & N2 & H2 & A2 & B2).
  destruct (instruction_made orc _ _ _ H2) as (ins & h3 & E3 & w3 & c3 & k3 & P3 & N3 & H3 & A3 & B3).
  destruct (symtab_made orc _ _ _ H3) as (tab & h4 & E4 & w4 & c4 & k4 & P4 & N4 & H4 & A4 & B4).
  destruct (unres_made orc _ _ _ H4) as (un & h5 & E5 & w5 & c5 & k5 & P5 & N5 & H5 & A5 & B5).
  exists lx, tk, ins, tab, un, h1, h2, h3, h4, h5.
  do 5 (split; [assumption|]).
  exists w5, c1, c2, c3, c4, c5, (k1 ++ k2 ++ k3 ++ k4 ++ k5).
  do 5 (split; [assumption|]).
  split; [repeat apply nofile_app; assumption|].
  split; [eapply heap_perm; [exact H5|]; cbn [app]; perm|].
  cbn [orb] in B1.
  destruct (is_null lx), (is_null tk), (is_null ins), (is_null tab), (is_null un); cbn [orb] in *; subst;
    (split; [reflexivity|]); try discriminate.
  intros _. rewrite A1, A2, A3, A4, A5 by reflexivity. reflexivity.
Qed.

(** ** src/main.c:143-291 *)
Lemma main_h_spec : forall orc fs src out r,
  main true no_failure fs src out = Ret r ->
  (exists o, print_error None ERROR_MEMORY_ALLOCATION_FAIL None src (-1) = Ret o) ->
  exists r' h w leak, main_h orc fs src out = Ret (r', h) /\ nofile leak /\ heap_is orc w h leak /\
    (w = false -> r' = r /\ leak = []) /\
    (w = true -> fst (fst r') = EXIT_FAILURE) /\
    (exists init_ok env, main init_ok env fs src out = Ret r') /\
    (forall name, text_eqb name out = false -> fs_file (snd r') name = fs_file fs name).
Proof.
  intros orc fs src out r R0 (om & EM). pose proof R0 as R. unfold main in R. unfold main_h. cbn [negb] in R.
  destruct (inits_spec orc) as (lx & tk & ins & tab & un & h1 & h2 & h3 & h4 & h5 & E1 & E2 & E3 & E4 & E5 &
    w & c1 & c2 & c3 & c4 & c5 & leak & P1 & P2 & P3 & P4 & P5 & NF & H & EW & EL).
  rewrite E1. cbn [bind]. rewrite E2. cbn [bind]. rewrite E3. cbn [bind]. rewrite E4. cbn [bind].
  rewrite E5. cbn [bind]. cbv zeta. rewrite EW. destruct w.
  { rewrite EM. cbn [bind].
    destruct (abort_early orc true h5 None lx tk ins tab un [] c1 c2 c3 c4 c5 leak H) as (h' & -> & H'); auto;
      [reflexivity|]. cbn [bind]. exists (EXIT_FAILURE, om, fs), h', true, leak.
    split; [reflexivity|]. split; [exact NF|]. split; [exact H'|]. split; [discriminate|]. split; [reflexivity|]. split; [|reflexivity].
    exists false, no_failure. unfold main. cbn [negb]. rewrite EM. reflexivity. }
  rewrite (EL eq_refl) in *. clear EL leak NF.
  destruct (fs_file fs src) as [bytes|] eqn:EF.
  2:{ apply bind_ret in R. destruct R as (o & E & R). injection R as <-. rewrite E. cbn [bind].
      destruct (abort_early orc false h5 None lx tk ins tab un [] c1 c2 c3 c4 c5 [] H) as (h' & -> & H'); auto;
        [reflexivity|]. cbn [bind]. exists (EXIT_FAILURE, o, fs), h', false, [].
      split; [reflexivity|]. split; [constructor|]. split; [exact H'|]. split; [auto|]. split; [discriminate|]. split; [exists true, no_failure; exact R0|reflexivity]. }
  destruct (new_file_spec h5 _ H) as (fi & h6 & -> & H6).
  destruct (fs_creatable fs out) eqn:ECr; cbn [negb] in *.
  2:{ apply bind_ret in R. destruct R as (o & E & R). injection R as <-. rewrite E. cbn [bind].
      destruct (abort_early orc false h6 (Some fi) lx tk ins tab un [(fi, CFile)] c1 c2 c3 c4 c5 [] H6)
        as (h' & -> & H'); auto; [reflexivity|]. cbn [bind]. exists (EXIT_FAILURE, o, fs), h', false, [].
      split; [reflexivity|]. split; [constructor|]. split; [exact H'|]. split; [auto|]. split; [discriminate|]. split; [exists true, no_failure; exact R0|reflexivity]. }
  destruct (new_file_spec h6 _ H6) as (fo & h7 & -> & H7).
  apply bind_ret in R. destruct R as (o & E & R). injection R as <-.
  apply orb_false_iff in EW. destruct EW as (EW & Q5). apply orb_false_iff in EW. destruct EW as (EW & Q4).
  apply orb_false_iff in EW. destruct EW as (EW & Q3). apply orb_false_iff in EW. destruct EW as (Q1 & Q2).
  destruct lx as [a1|]; [|discriminate]. destruct tk as [a2|]; [|discriminate]. destruct ins as [a3|]; [|discriminate].
  destruct tab as [a4|]; [|discriminate]. destruct un as [a5|]; [|discriminate].
  cbn [has] in *. destruct P1 as (s1 & toks & L & ->). destruct P2 as (s2 & ->). unfold is_instr in P3. subst c3.
  destruct P4 as (s4 & ->). destruct P5 as (s5 & ->).
  set (b := mkWhere fi fo a1 s1 toks (a2, s2) a3 a4 a5).
  assert (G : good orc b h7 init_symbol_table init_unresolved).
  { split; [exact L|]. exists s4, (repeat None 17), 17, 0, s5, [], 8%nat.
    split; [reflexivity|]. split; [reflexivity|]. split; [reflexivity|]. split; [lia|].
    eapply heap_perm; [exact H7|]. unfold base_cells. cbn [b w_inf w_outf w_lexer w_seq w_toks w_tk w_instr w_symtab w_unres].
    set (p1 := lexer_cells _ _ _). set (p2 := tok_cells _). set (p4 := table_cells _ _ _ _ _). set (p5 := unres_cells _ _ _ _).
    perm. }
  match type of E with assemble no_failure _ ?s = _ => set (source := s) in * end.
  destruct (assemble_h_spec orc b src source h7 o G E) as (o' & h8 & EA & X).
  change (mkPtrs (Some fi) (Some fo) (Some a1) (Some a2) (Some a3) (Some a4) (Some a5)) with (ptrs b).
  rewrite EA. cbn [bind]. destruct X as [(-> & H8)|(X & (env & XE) & leak & NF & H8)].
  - exists (exit_code o, stdout o, fs_write (fs_write fs out []) out (binary o)), h8, false, [].
    split; [reflexivity|]. split; [constructor|]. split; [exact H8|]. split; [auto|]. split; [discriminate|]. split; [exists true, no_failure; exact R0|].
    intros name N. cbn [snd fs_write fs_file]. rewrite N. reflexivity.
  - exists (exit_code o', stdout o', fs_write (fs_write fs out []) out (binary o')), h8, true, leak.
    split; [reflexivity|]. split; [exact NF|]. split; [exact H8|]. split; [discriminate|].
    split; [intros _; exact X|]. split; [exists true, env; unfold main; cbn [negb]; rewrite EF, ECr; cbn [negb]; fold source; cbv zeta; fold source; rewrite XE; reflexivity|]. intros name N. cbn [snd fs_write fs_file]. rewrite N. reflexivity.
Qed.
