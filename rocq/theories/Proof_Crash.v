(** Proof_Crash.v -- every content of the output file during a successful assembly of a program (Model_Io). *)
From Verif Require Import Base Proof_Base Model_Opcode Model_Error Model_Lexer Model_SymbolTable
  Model_Parser Model_ForwardRef Model_Generator Model_Main Spec_Isa Spec_Text Spec_Asm Spec_Link Spec_Diag Spec_Grammar Spec_Prog Spec_Report
  Proof_Table Proof_Refs Proof_Lex2 Proof_Core Proof_Parse Proof_Sim2 Proof_Sim4 Proof_Run Proof_Diag Proof_Source Proof_Whole Proof_Ref Proof_Image Proof_Prog
  Model_Io Proof_Io Spec_Crash Proof_Seen Proof_Kept.

Definition exact_file (f : OFile) (w : IoFile) : Prop := f = io_file w.
Lemma exact_put : forall c f w, exact_file f w -> exact_file (fputc c f) (snd (fputc_io no_fault c w)).
Proof. intros c f w ->. reflexivity. Qed.
Lemma exact_seek : forall p f w, exact_file f w -> exact_file (fseek f p) (snd (fseek_io no_fault p w)).
Proof. intros p f w ->. reflexivity. Qed.

(** the state of Model_Main *)
Definition ideal (s : StIo) : St := with_out (si_st s) (io_file (si_io s)).

Lemma ideal_sim : forall s, state_sim exact_file s (ideal s).
Proof. intro s. exists (io_file (si_io s)). split; reflexivity. Qed.
Lemma sim_ideal : forall s st, state_sim exact_file s st -> st = ideal s.
Proof. intros s st (f & -> & ->). reflexivity. Qed.

Lemma line_pc : forall line toks c c', line_step line toks c = CNext c' ->
  c_total c' = c_total c \/ c_pc c' - c_total c' = c_pc c - c_total c.
Proof.
  assert (I : forall line toks m op fl c c', instr_step line toks m op fl c = CNext c' -> c_pc c' - c_total c' = c_pc c - c_total c).
  { intros line toks m op fl c c' H. unfold instr_step in H.
    repeat match type of H with context [match ?x with _ => _ end] => destruct x end; try discriminate; injection H as <-; cbn; lia. }
  intros line toks c c' H. unfold line_step in H. destruct (compile _) as [[|n|n i v|v| |lab m op fl]|[bs i]]; try discriminate.
  - injection H as <-. auto.
  - destruct (lookup _ _); [discriminate|]. injection H as <-. auto.
  - destruct (lookup _ _); [discriminate|]. injection H as <-. auto.
  - injection H as <-. auto.
  - right. destruct lab as [n|]; [destruct (lookup _ _); [discriminate|]|]; apply I in H; exact H.
Qed.

Section Seen.
Variable G : list Z -> Prop.
Hypothesis HG : forall d s d', G d -> G d' -> between d s d' -> G s.

Lemma grew_all : forall w w', grew w w' -> G (data w) -> G (data w') -> Forall G (io_seen w) -> Forall G (io_seen w').
Proof.
  intros w w' (new & E & F) A B S. rewrite E. apply Forall_app. split; [|exact S].
  eapply Forall_impl; [|exact F]. intros s K. exact (HG _ _ _ A B K).
Qed.

Lemma one_line : forall file done line toks s c c', Rel file (ideal s) c -> Bnd done c ->
  Lexes wr true 0 line toks -> (List.length toks <= 8)%nat -> line_step line toks c = CNext c' -> zlen done < FEW ->
  0 <= of_pos (io_file (si_io s)) -> G (of_data (c_file c)) -> G (of_data (c_file c')) -> Forall G (io_seen (si_io s)) ->
  exists s', process_line_io no_fault alloc_all line s = Ret (NextIo s') /\ Rel file (ideal s') c' /\ Bnd (done ++ [line]) c' /\
    0 <= of_pos (io_file (si_io s')) /\ Forall G (io_seen (si_io s')).
Proof.
  intros file done line toks s c c' HR HB HL HN HS Few Pos G1 G2 Sn.
  pose proof (process_line_sim file done line toks (ideal s) c HR HB HL HN) as Sim.
  pose proof (line_step_sim no_fault exact_file exact_put exact_seek alloc_all line s (ideal s) (ideal_sim s)) as L.
  destruct Sim as [c2 st2 E1 E2 R2 B2|c2 st2 E1 E2 R2 B2|m2 p2 st2 out E1 E2 _ Rep _|[(u & Hu) Hl]]; try congruence; [|lia].
  rewrite HS in E1. injection E1 as <-. rewrite E2 in L.
  pose proof (line_seen alloc_all line s) as LS.
  destruct (process_line_io no_fault alloc_all line s) as [[s'|s'|s']| |]; cbn [MR line_sim] in L; try contradiction.
  apply sim_ideal in L. subst st2. exists s'. split; [reflexivity|]. split; [exact R2|]. split; [exact B2|].
  cbn [MP line_emits] in LS.
  assert (D : data (si_io s) = of_data (c_file c)) by (pose proof (q_out _ _ _ HR) as K; cbn in K; unfold data; rewrite K; reflexivity).
  assert (D' : data (si_io s') = of_data (c_file c')) by (pose proof (q_out _ _ _ R2) as K; cbn in K; unfold data; rewrite K; reflexivity).
  destruct LS as [E|(p & bs & Em & Nb & Et & Ep)].
  - rewrite E. auto.
  - assert (Hp : 0 <= p).
    { pose proof (q_total _ _ _ R2) as T2. pose proof (q_total _ _ _ HR) as T1. pose proof (q_pc _ _ _ R2) as P2.
      cbn in T1, T2, P2. pose proof (b_pc _ _ HB). destruct bs as [|b0 bs]; [congruence|]. cbn [List.length] in *.
      destruct (line_pc _ _ _ _ HS) as [K|K]; lia. }
    destruct (emits_grew _ _ _ _ Em Pos Hp) as [Gr P']. split; [exact P'|].
    eapply grew_all; eauto; congruence.
Qed.


Lemma run_seen : forall file all fin code, (forall l1 l2, d_done fin = l1 ++ l2 -> G (of_data (file_of l1))) ->
  forall lines p, Forall2 line_means lines p -> forall reads n dst c s done k, Forall2 read_as lines reads -> DRel all n dst c -> part all n lines ->
  diag_from AsBuilt n dst p = DOk fin code -> Rel file (ideal s) c -> Bnd done c -> zlen done + zlen reads < FEW ->
  0 <= of_pos (io_file (si_io s)) -> Forall G (io_seen (si_io s)) ->
  exists s' c' n' done', run_lines_io all_reads no_fault no_failure k reads s = Ret (FinishIo s') /\
    Rel file (ideal s') c' /\ Bnd done' c' /\ zlen done' < FEW /\ DRel all n' fin c' /\
    0 <= of_pos (io_file (si_io s')) /\ Forall G (io_seen (si_io s')).
Proof.
  intros file all fin code Front lines p H. induction H as [|l t lines p (toks & HL & HT) H IH];
    intros reads n dst c s done k HRd HR HP HD QR QB Few Pos Sn.
  - inversion HRd; subst. cbn [Spec_Diag.diag_from] in HD. unfold Spec_Diag.d_close in HD.
    destruct (complete AsBuilt (d_env dst) (d_done dst)) as [cd|[? ?]]; [|discriminate]. injection HD as -> _.
    exists s, c, n, done. split; [reflexivity|]. unfold zlen in Few. cbn in Few. unfold zlen. auto 8 with zarith.
  - inversion HRd as [|? rd ? rds Hrd HRd']; subst.
    assert (Fd : zlen (rd :: rds) = 1 + zlen rds) by (unfold zlen; cbn [List.length]; lia). rewrite Fd in Few.
    assert (Z1 : 0 <= zlen rds) by (unfold zlen; lia).
    pose proof (line_diag all (cstring rd) l toks n dst c t HR (part_nth _ _ _ _ HP) HL HT) as LD.
    assert (HL2 : Lexes wr true 0 (cstring rd) toks) by (eapply Lexes_read; [apply Lexes_wr; exact HL|exact Hrd]).
    assert (HN : (List.length toks <= 8)%nat) by (rewrite <- (map_length fst toks); eapply Line_short; eauto).
    cbn [run_lines_io all_reads]. change (no_failure (st_line_num (si_st s))) with alloc_all.
    assert (t = SEnd \/ t <> SEnd) as [-> |Ns] by (destruct t; auto; right; discriminate).
    + cbn [Spec_Diag.diag_from] in HD. unfold Spec_Diag.d_close in HD.
      destruct (complete AsBuilt (d_env dst) (d_done dst)) as [cd|[? ?]]; [|discriminate]. injection HD as -> _.
      pose proof (process_line_sim file done (cstring rd) toks (ideal s) c QR QB HL2 HN) as Sim.
      pose proof (line_step_sim no_fault exact_file exact_put exact_seek alloc_all (cstring rd) s (ideal s) (ideal_sim s)) as L.
      destruct Sim as [c2 st2 E1 E2 R2 B2|c2 st2 E1 E2 R2 B2|m2 p2 st2 out E1 E2 _ Rep _|[(u & Hu) Hl]]; try congruence; [|lia].
      rewrite LD in E1. injection E1 as <-. rewrite E2 in L. pose proof (line_seen alloc_all (cstring rd) s) as LS.
      destruct (process_line_io no_fault alloc_all (cstring rd) s) as [[s'|s'|s']| |]; cbn [MR line_sim] in L; try contradiction.
      apply sim_ideal in L. subst st2. cbn in LS. exists s', c, n, done. rewrite LS. cbn [bind]. auto 9 with zarith.
    + assert (LD' : match diag_stmt AsBuilt n dst t with
        | inl st' => exists c', line_step (cstring rd) toks c = CNext c' /\ DRel all (n + 1) st' c'
        | inr (msg, w) => line_step (cstring rd) toks c = CErr msg (place_offset toks w) end)
        by (destruct t; try congruence; exact LD).
      assert (DF : diag_from AsBuilt n dst (t :: p) = match diag_stmt AsBuilt n dst t with
        | inl st' => diag_from AsBuilt (n + 1) st' p | inr (m, w) => DError n m w end) by (destruct t; try congruence; reflexivity).
      pose proof HD as HD0. rewrite DF in HD. destruct (diag_stmt AsBuilt n dst t) as [st1|[m w]]; [|discriminate].
      destruct LD' as (c1 & Es & HR1).
      assert (Pre : forall n0 st0 q, diag_from AsBuilt n0 st0 q = DOk fin code -> G (of_data (file_of (d_done st0)))).
      { intros n0 st0 q K. destruct (diagnose_state _ _ _ _ _ _ K) as [K1 _]. destruct (accepts_done _ _ _ _ _ K1) as (more & K2 & _).
        eapply Front. exact K2. }
      destruct (one_line file done (cstring rd) toks s c c1 QR QB HL2 HN Es) as (s1 & P1 & R1 & B1 & Po1 & S1); auto with zarith.
      { rewrite (r_file _ _ _ _ HR). eapply Pre; eauto. }
      { rewrite (r_file _ _ _ _ HR1). eapply Pre; eauto. }
      rewrite P1. cbn [bind].
      apply (IH rds (n + 1) st1 c1 s1 (done ++ [cstring rd]) (S k)); auto.
      * eapply part_next; eauto.
      * rewrite zlen_app. unfold zlen at 2. cbn [List.length]. lia.
Qed.

Lemma resolve_seen : forall file lines e refs i s f,
  tab_ok (st_symtab (si_st s)) e -> lx_file (st_lexer (si_st s)) = file -> st_stdout (si_st s) = [] ->
  Forall (ref_good lines) refs -> Forall (fun r => 0 <= fr_pc r) refs ->
  (forall n v, lookup e n = Some v -> 0 <= v <= 65535 + 3 * zlen lines) -> zlen lines < FEW ->
  (forall k r, nth_error refs k = Some r -> get (un_refs (st_unresolved (si_st s))) (i + Z.of_nat k) = Ret (Some r)) ->
  finish e refs (io_file (si_io s)) = FDone f ->
  (forall r1 r2 g, refs = r1 ++ r2 -> finish e r1 (io_file (si_io s)) = FDone g -> G (of_data g)) ->
  0 <= of_pos (io_file (si_io s)) -> Forall G (io_seen (si_io s)) ->
  exists s', resolve_all_io no_fault file (List.length refs) i s = Ret (FinishIo s') /\ io_file (si_io s') = f /\
    Forall G (io_seen (si_io s')).
Proof.
  intros file lines e. induction refs as [|r refs IH]; intros i s f QT QF QS QG QP QV Few QU QE Front Pos Sn.
  - cbn in *. injection QE as <-. exists s. auto.
  - inversion QG as [|? ? Gr QG']; subst. inversion QP as [|? ? Pr QP']; subst.
    destruct (Proof_Run.resolve_all_sim (lx_file (st_lexer (si_st s))) lines e [r] i (ideal s) (io_file (si_io s))) as [[_ K]|K]; auto; [|lia|].
    { intros k r' Hk. destruct k as [|k]; [|destruct k; discriminate]. injection Hk as <-. apply (QU 0%nat). reflexivity. }
    assert (F1 : exists f1, finish e [r] (io_file (si_io s)) = FDone f1 /\ finish e refs f1 = FDone f).
    { cbn [finish] in QE |- *. destruct (lookup e (fr_label r)); [|discriminate]. destruct (is_branch _); [|eauto].
      destruct (branch_offset _ _); [eauto|discriminate]. }
    destruct F1 as (f1 & F1 & F2). rewrite F1 in K.
    pose proof (Proof_Io.resolve_all_sim no_fault exact_file exact_put exact_seek (lx_file (st_lexer (si_st s))) 1 i s (ideal s) (ideal_sim s)) as L.
    cbn [List.length] in K. rewrite K in L. cbn [List.length] in *. clear K.
    assert (Step1 : resolve_all_io no_fault (lx_file (st_lexer (si_st s))) (S (List.length refs)) i s =
      bind (resolve_all_io no_fault (lx_file (st_lexer (si_st s))) 1 i s)
        (fun r => match r with FinishIo s1 => resolve_all_io no_fault (lx_file (st_lexer (si_st s))) (List.length refs) (i + 1) s1 | _ => Ret r end)).
    { cbn [resolve_all_io]. destruct (get _ _) as [[ref|]| |]; cbn [bind]; try reflexivity.
      destruct (search_symbol _ _) as [dest| |]; cbn [bind]; try reflexivity. destruct (IS_ERROR dest).
      - destruct (print_error _ _ _ _ _); reflexivity.
      - destruct (resolve_forward_ref_io _ _ _ _ _) as [[[n w] out]| |]; cbn [bind]; try reflexivity.
        destruct (IS_ERROR n); reflexivity. }
    assert (Em : match resolve_all_io no_fault (lx_file (st_lexer (si_st s))) 1 i s with
      | Ret (FinishIo s1) => exists bs, emits (fr_pc r) bs (si_io s) (si_io s1) | _ => True end).
    { cbn [resolve_all_io]. pose proof (QU 0%nat r eq_refl) as U. rewrite Z.add_0_r in U. rewrite U. cbn [bind].
      destruct (search_symbol _ _) as [dest| |]; cbn [bind]; try exact I. destruct (IS_ERROR dest).
      - destruct (print_error _ _ _ _ _); exact I.
      - pose proof (forward_emits (si_io s) r (st_lexer (si_st s)) dest) as FE.
        destruct (resolve_forward_ref_io _ _ _ _ _) as [[[n w] out]| |]; cbn [bind]; try exact I.
        destruct (IS_ERROR n) eqn:En; [exact I|]. cbn [MP] in FE. exact (FE En). }
    destruct (resolve_all_io no_fault (lx_file (st_lexer (si_st s))) 1 i s) as [[s1|s1|s1]| |]; cbn [MR line_sim] in L; try contradiction.
    destruct L as (g & L & Lg). unfold exact_file in Lg. subst g.
    assert (If : io_file (si_io s1) = f1) by (apply (f_equal st_out) in L; cbn in L; congruence).
    assert (Ex : forall A (pr : St -> A), (forall st g, pr (with_out st g) = pr st) -> pr (si_st s1) = pr (st_set_out (ideal s) f1 [])).
    { intros A pr Hpr. rewrite L. symmetry. apply Hpr. }
    destruct Em as (bs & Em). destruct (emits_grew _ _ _ _ Em Pos Pr) as [Gw P1].
    rewrite Step1. cbn [bind].
    assert (G0 : G (data (si_io s))) by (apply (Front [] (r :: refs)); reflexivity).
    assert (G1 : G (data (si_io s1))).
    { unfold data. rewrite If. apply (Front [r] refs); [reflexivity|exact F1]. }
    assert (Elx : lx_file (st_lexer (si_st s1)) = lx_file (st_lexer (si_st s))) by (rewrite (Ex _ (fun st => lx_file (st_lexer st))); reflexivity).
    apply (IH (i + 1) s1 f); auto.
    + rewrite (Ex _ st_symtab); auto.
    + rewrite (Ex _ st_stdout); [|reflexivity]. cbn. rewrite QS. reflexivity.
    + intros k r' Hk. rewrite (Ex _ st_unresolved); [|reflexivity]. cbn. replace (i + 1 + Z.of_nat k) with (i + Z.of_nat (S k)) by lia. apply QU. exact Hk.
    + rewrite If. exact F2.
    + intros r1 r2 g E K. apply (Front (r :: r1) r2); [rewrite E; reflexivity|]. rewrite If in K.
      cbn [finish] in F1 |- *. destruct (lookup e (fr_label r)); [|discriminate]. destruct (is_branch _).
      * destruct (branch_offset _ _); [|discriminate]. injection F1 as <-. exact K.
      * injection F1 as <-. exact K.
    + eapply grew_all; eauto.
Qed.
End Seen.

(** ** Which contents *)
Lemma unfinished_nth : forall whole part, unfinished whole part <->
  (List.length part <= List.length whole)%nat /\ forall a, nth a part 0 = 0 \/ nth a part 0 = nth a whole 0.
Proof.
  intros whole part. split; intros [L H]; (split; [exact L|]).
  - intro a. destruct (nth_error part a) as [b|] eqn:E.
    + rewrite (nth_error_nth _ _ 0 E). destruct (H a b E) as [-> |K]; [auto|right; symmetry; apply nth_error_nth; exact K].
    + left. apply nth_overflow. apply nth_error_None. exact E.
  - intros a b E. assert (La : (a < List.length part)%nat) by (apply nth_error_Some; congruence).
    specialize (H a). rewrite (nth_error_nth _ _ 0 E) in H. destruct H as [H|H]; [auto|right]. rewrite H. apply nth_error_nth'. lia.
Qed.

Lemma unfinished_between : forall whole d s d', unfinished whole d -> unfinished whole d' -> between d s d' -> unfinished whole s.
Proof.
  intros whole d s d' A B (L & N). apply unfinished_nth in A, B. apply unfinished_nth. destruct A as [A1 A2], B as [B1 B2]. split; [lia|].
  intro a. destruct (N a) as [-> |[-> | ->]]; auto.
Qed.

Definition ok_piece (code : list (Z * list Z)) (w : Z * list Z) : Prop :=
  fst w + zlen (snd w) <= image_end code /\
  forall i b, nth_error (snd w) i = Some b -> b = 0 \/ byte_at code (fst w + Z.of_nat i) = Some b.

Lemma byte_at_in : forall ws a b, byte_at ws a = Some b -> exists p bs, In (p, bs) ws /\ p <= a /\ nth_error bs (Z.to_nat (a - p)) = Some b.
Proof.
  induction ws as [|[p bs] ws IH]; intros a b H; [discriminate|]. cbn [byte_at] in H.
  destruct (byte_at ws a) as [c|] eqn:E.
  - injection H as ->. destruct (IH a b E) as (q & cs & I & K). exists q, cs. split; [right; exact I|exact K].
  - destruct (_ && _) eqn:T; [|discriminate]. apply andb_true_iff in T. destruct T as [T _]. apply Z.leb_le in T.
    exists p, bs. split; [left; reflexivity|]. auto.
Qed.

Lemma image_unfinished : forall ws d code whole, is_image ws d -> is_image code whole -> Forall (ok_piece code) ws -> unfinished whole d.
Proof.
  intros ws d code whole [L1 N1] [L2 N2] F.
  assert (Le : image_end ws <= image_end code).
  { apply image_end_le; [apply image_end_pos|]. eapply Forall_impl; [|exact F]. intros w [K _]. exact K. }
  split; [lia|]. intros a b H. assert (La : (a < List.length d)%nat) by (apply nth_error_Some; congruence).
  specialize (N1 (Z.of_nat a) ltac:(lia)). rewrite Nat2Z.id, H in N1. injection N1 as ->.
  destruct (byte_at ws (Z.of_nat a)) as [b|] eqn:E; [|auto].
  destruct (byte_at_in _ _ _ E) as (p & bs & I & Hp & Hb). rewrite Forall_forall in F. destruct (F _ I) as [_ K]. cbn [fst snd] in K.
  destruct (K _ _ Hb) as [K1|K1]; [auto|right]. replace (p + Z.of_nat (Z.to_nat (Z.of_nat a - p))) with (Z.of_nat a) in K1 by lia.
  specialize (N2 (Z.of_nat a) ltac:(lia)). rewrite Nat2Z.id, K1 in N2. exact N2.
Qed.

(** the bytes of an instruction are the code at its address *)
Definition in_code (e : env) (code : list (Z * list Z)) (p : placed) : Prop :=
  exists bs, final_bytes e p bs /\ it_addr (pl_item p) + 1 + zlen bs <= image_end code /\
    forall i b, nth_error (it_opcode (pl_item p) :: bs) i = Some b -> byte_at code (it_addr (pl_item p) + Z.of_nat i) = Some b.

Lemma code_of_app : forall e l1 l2, code_of e (l1 ++ l2) = code_of e l1 ++ code_of e l2.
Proof. intros e l1 l2. induction l1 as [|p l1 IH]; [reflexivity|]. cbn [app code_of]. rewrite IH. reflexivity. Qed.

Lemma placed_in_code : forall e l code, complete AsBuilt e l = inl code -> Forall good_placed l ->
  Forall (fun p => exists bs, final_bytes e p bs) l -> sorted 0 l -> Forall (in_code e code) l.
Proof.
  intros e l code HC HG HF HS. pose proof (complete_code _ _ _ HC) as [Ec _]. apply Forall_forall. intros p Hp.
  apply in_split in Hp. destruct Hp as (l1 & l2 & El).
  assert (Fp : exists bs, final_bytes e p bs) by (rewrite Forall_forall in HF; apply HF; rewrite El; apply in_or_app; right; left; reflexivity).
  destruct Fp as (bs & Fb). exists bs. split; [exact Fb|].
  assert (Ep : code = code_of e l1 ++ (it_addr (pl_item p), it_opcode (pl_item p) :: bs) :: code_of e l2).
  { rewrite <- Ec, El, code_of_app. cbn [code_of]. destruct Fb as [Fb _]. destruct (pl_bytes p); [subst|rewrite Fb]; reflexivity. }
  destruct (sorted_pieces AsBuilt e l code 0 HC HG HF HS eq_refl _ _ _ _ Ep) as [_ N].
  split.
  - rewrite Ep, image_end_app. cbn [image_end]. fold (zlen (it_opcode (pl_item p) :: bs)). rewrite zlen_cons. lia.
  - intros i b Hb. assert (Li : (i < List.length (it_opcode (pl_item p) :: bs))%nat) by (apply nth_error_Some; congruence).
    rewrite Ep, byte_at_app. cbn [byte_at]. rewrite N by (unfold zlen; lia).
    assert ((it_addr (pl_item p) <=? it_addr (pl_item p) + Z.of_nat i) &&
      (it_addr (pl_item p) + Z.of_nat i <? it_addr (pl_item p) + Z.of_nat (List.length (it_opcode (pl_item p) :: bs))) = true) as ->.
    { apply andb_true_iff. split; [apply Z.leb_le|apply Z.ltb_lt]; lia. }
    replace (Z.to_nat (it_addr (pl_item p) + Z.of_nat i - it_addr (pl_item p))) with i by lia. rewrite Hb. reflexivity.
Qed.

Lemma nth_zeros : forall n i b, nth_error (zeros n) i = Some b -> b = 0.
Proof. intros n i b H. apply nth_error_In in H. apply repeat_spec in H. exact H. Qed.

Lemma first_ok : forall e code l q, Forall good_placed l -> Forall (in_code e code) l -> sorted q l ->
  Forall (ok_piece code) (first_writes q l).
Proof.
  intros e code l q HG HI. revert q. induction HI as [|p l (bs & [F1 F2] & F3 & F4) HI IH]; intros q HS; [constructor|].
  inversion HG as [|? ? (G1 & G2 & G3 & G4) HG']; subst. destruct HS as [S1 S2]. cbn [first_writes]. apply Forall_app. split; [|auto].
  destruct (pl_bytes p) as [bs0|].
  - subst bs0. constructor; [|constructor]. split; cbn [fst snd]; [rewrite zlen_cons; lia|]. intros i b Hb. right. auto.
  - constructor; [|constructor; [|constructor]]; split; cbn [fst snd].
    + rewrite zlen_zeros by lia. lia.
    + intros i b Hb. left. eapply nth_zeros; eauto.
    + rewrite zlen_cons, zlen_zeros by lia. lia.
    + intros [|i] b Hb; [right; apply F4; exact Hb|left; eapply nth_zeros; exact Hb].
Qed.

Lemma last_ok : forall e code l, Forall (in_code e code) l -> Forall (ok_piece code) (last_writes AsBuilt e l).
Proof.
  intros e code l HI. induction HI as [|p l (bs & [F1 F2] & F3 & F4) HI IH]; [constructor|].
  cbn [Spec_Diag.last_writes]. apply Forall_app. split; [|exact IH]. destruct (pl_bytes p); [constructor|]. rewrite F1.
  constructor; [|constructor]. split; cbn [fst snd]; [rewrite zlen_cons; lia|]. intros i b Hb. right. auto.
Qed.

Lemma first_good : forall l q, 0 <= q -> Forall good_placed l -> Forall good_piece (first_writes q l).
Proof.
  intros l q Hq HG. revert q Hq. induction HG as [|p l (G1 & G2 & G3 & G4) HG IH]; intros q Hq; [constructor|].
  cbn [first_writes]. apply Forall_app. split; [|apply IH; unfold pl_end; lia]. destruct (pl_bytes p) as [bs|].
  - constructor; [|constructor]. split; [exact G1|]. split; [discriminate|]. constructor; tauto.
  - constructor; [|constructor; [|constructor]]; (split; [cbn; lia|]); (split; [|cbn [snd]; try constructor; auto using zeros_byte]); cbn [snd]; try discriminate.
    intro K. apply (f_equal zlen) in K. rewrite zlen_zeros in K by lia. unfold zlen in K. cbn in K. lia.
Qed.

Lemma last_sub : forall e l l', (forall p, In p l -> In p l') -> forall w, In w (last_writes AsBuilt e l) -> In w (last_writes AsBuilt e l').
Proof.
  assert (K : forall e l w, In w (last_writes AsBuilt e l) <-> exists p bs, In p l /\ pl_bytes p = None /\ encode_operand AsBuilt e (pl_item p) = Some bs /\
    w = (it_addr (pl_item p), it_opcode (pl_item p) :: bs)).
  { intros e. induction l as [|p l IH]; intro w; cbn [Spec_Diag.last_writes].
    - split; [intros []|intros (p & bs & [] & _)].
    - rewrite in_app_iff, IH. split.
      + intros [H|(q & bs & H1 & H2)]; [|exists q, bs; split; [right; exact H1|exact H2]].
        destruct (pl_bytes p) eqn:Eb; [destruct H|]. destruct (encode_operand AsBuilt e (pl_item p)) as [bs|] eqn:Ee; [|destruct H].
        destruct H as [<- |[]]. exists p, bs. split; [left; reflexivity|]. auto.
      + intros (q & bs & [-> |H] & H1 & H2 & H3).
        * left. rewrite H1, H2. left. auto.
        * right. exists q, bs. auto. }
  intros e l l' H w. rewrite !K. intros (p & bs & I & R). exists p, bs. auto.
Qed.

(** ** The whole run *)
Lemma assemble_exact : forall env file src,
  MR (outcome_sim eq) (assemble_io all_reads no_fault env file src) (assemble env file src).
Proof.
  intros env file src. rewrite assemble_is_lines, <- (lines_read_all (chunks src) 0).
  apply (assemble_sim no_fault exact_file eq); auto using exact_put, exact_seek; [|reflexivity]. intros f w ->. reflexivity.
Qed.

Lemma filter_split : forall A (f : A -> bool) l x y, filter f l = x ++ y -> exists l1 l2, l = l1 ++ l2 /\ filter f l1 = x /\ filter f l2 = y.
Proof.
  intros A f. induction l as [|a l IH]; intros x y H; cbn [filter] in H.
  - symmetry in H. apply app_eq_nil in H. destruct H as [-> ->]. exists [], []. auto.
  - destruct (f a) eqn:E.
    + destruct x as [|b x].
      * exists [], (a :: l). cbn [app filter] in *. rewrite E. auto.
      * injection H as -> H. destruct (IH _ _ H) as (l1 & l2 & -> & <- & <-). exists (b :: l1), l2. cbn. rewrite E. auto.
    + destruct (IH _ _ H) as (l1 & l2 & -> & <- & <-). exists (a :: l1), l2. cbn. rewrite E. auto.
Qed.

Theorem crash_seen : forall file src p o, program_means src p -> small src -> monotone AsBuilt p ->
  gaia file src = Ret o -> exit_code o = 0 ->
  exists x, assemble_io all_reads no_fault no_failure file src = Ret x /\
    Forall (unfinished (binary o)) (xi_seen x).
Proof.
  intros file src p o HP HB HM HG HE.
  destruct (program_cases file src p HP HB) as
    [(st & code & bin & A & B & C & D & E & F & G)|(n & m & w & o' & lines & line & toks & _ & _ & E & F & _)]; [|congruence].
  rewrite HG in E. injection E as ->. cbn [binary exit_code] in *. specialize (G HM).
  destruct HP as (lines & HS & HL).
  pose proof (diagnose_reference AsBuilt p) as DR. rewrite A in DR. destruct DR as (_ & _ & Sd & _).
  pose proof (diag_from_good p 1 (mkD 0 [] []) (Forall_impl _ stmt16_ok (lines_16 _ _ HL)) good_init) as Gd.
  fold (diagnose AsBuilt p) in Gd. rewrite A in Gd.
  pose proof (diag_from_sorted p 1 (mkD 0 [] []) HM I (Z.le_refl 0) (Forall_nil _)) as So.
  fold (diagnose AsBuilt p) in So. rewrite A in So.
  destruct (accepted_good _ _ Gd Sd D) as (A1 & A2 & A3 & A4 & A5).
  pose proof (placed_in_code _ _ _ D A1 A2 So) as IC.
  assert (OkF : Forall (ok_piece code) (first_writes 0 (d_done st))) by (eapply first_ok; eauto).
  assert (OkL : Forall (ok_piece code) (last_writes AsBuilt (d_env st) (d_done st))) by (eapply last_ok; eauto).
  assert (Un : forall ws, Forall good_piece ws -> Forall (ok_piece code) ws -> unfinished bin (of_data (do_writes ws (mkOFile [] 0)))).
  { intros ws W1 W2. eapply image_unfinished; eauto. apply writes_image. exact W1. }
  assert (FO : forall l, Forall good_placed l -> file_of l = do_writes (first_writes 0 l) (mkOFile [] 0)).
  { intros l Hl. unfold file_of. rewrite first_writes_file by exact Hl. reflexivity. }
  assert (Front1 : forall l1 l2, d_done st = l1 ++ l2 -> unfinished bin (of_data (file_of l1))).
  { intros l1 l2 El. rewrite El in A1, OkF. apply Forall_app in A1. destruct A1 as [A11 _].
    rewrite first_writes_app in OkF. apply Forall_app in OkF. destruct OkF as [OkF _].
    rewrite (FO _ A11). apply Un; [apply first_good; auto with zarith|exact OkF]. }
  destruct (run_seen (unfinished bin) (unfinished_between bin) file lines st code Front1 lines p HL (chunks src) 1 (mkD 0 [] []) core_init
    (mkStIo (init_state file) init_io) [] 0%nat) as (s' & c' & n' & done' & R1 & R2 & R3 & R4 & R5 & R6 & R7).
  - apply chunks_source. exact HS.
  - apply DRel_init.
  - exists []. split; reflexivity.
  - exact A.
  - constructor; cbn; auto; [apply tab_ok_init|apply refs_ok_init].
  - apply Bnd_init.
  - pose proof (chunks_length src). unfold small in HB. unfold zlen, FEW. cbn [List.length]. lia.
  - cbn. lia.
  - constructor; [|constructor]. split; [cbn; lia|]. intros [|a0] b0 K; discriminate.
  - pose proof (q_refs _ _ _ R2) as Qr. cbn [ideal with_out st_unresolved] in Qr.
    pose proof (r_refs _ _ _ _ R5) as RF. pose proof (r_env _ _ _ _ R5) as RE. pose proof (r_file _ _ _ _ R5) as Rf.
    pose proof (q_out _ _ _ R2) as Qo. cbn [ideal with_out st_out] in Qo.
    assert (Fin : forall l1 r1, Forall2 (ref_for lines) (filter is_open l1) r1 -> (exists l2, d_done st = l1 ++ l2) ->
      finish (c_env c') r1 (io_file (si_io s')) = FDone (patch_file (d_env st) l1 (file_of (d_done st)))).
    { intros l1 r1 H (l2 & El). rewrite RE, Qo, Rf. pose proof (finish_complete lines (d_env st) l1 r1 (file_of (d_done st)) H) as K.
      assert (exists cc, complete AsBuilt (d_env st) l1 = inl cc) as (cc & Ec).
      { rewrite El in D. clear - D. revert code D. induction l1 as [|q l1 IH]; intros code D; [exists []; reflexivity|].
        cbn [app Spec_Diag.complete] in *. destruct (pl_bytes q).
        - destruct (complete AsBuilt (d_env st) (l1 ++ l2)) as [cc|[? ?]]; [|discriminate]. destruct (IH _ eq_refl) as (c2 & ->). eauto.
        - destruct (encode_operand AsBuilt (d_env st) (pl_item q)).
          + destruct (complete AsBuilt (d_env st) (l1 ++ l2)) as [cc|[? ?]]; [|discriminate]. destruct (IH _ eq_refl) as (c2 & ->). eauto.
          + discriminate. }
      rewrite Ec in K. exact K. }
    destruct (resolve_seen (unfinished bin) (unfinished_between bin) file done' (c_env c') (c_refs c') 0 s'
      (patch_file (d_env st) (d_done st) (file_of (d_done st)))) as (s2 & Q1 & Q2 & Q3); auto.
    + exact (q_tab _ _ _ R2).
    + exact (q_file _ _ _ R2).
    + exact (q_stdout _ _ _ R2).
    + exact (b_good _ _ R3).
    + eapply Forall_impl; [|exact (b_good _ _ R3)]. intros r K. exact (proj1 (g_pc _ _ K)).
    + exact (b_vals _ _ R3).
    + intros k r Hk. rewrite Z.add_0_l. apply (refs_get _ _ _ _ Qr Hk).
    + apply Fin; [exact RF|]. exists []. rewrite app_nil_r. reflexivity.
    + intros r1 r2 g Er Hg. rewrite Er in RF. apply Forall2_app_inv_r in RF. destruct RF as (x1 & x2 & F1 & _ & Ex).
      apply filter_split in Ex. destruct Ex as (l1 & l2 & El & <- & _).
      rewrite (Fin l1 r1 F1) in Hg by eauto. injection Hg as <-. rewrite last_writes_file, (FO _ A1).
      unfold do_writes. rewrite <- fold_left_app. fold (do_writes (first_writes 0 (d_done st) ++ last_writes AsBuilt (d_env st) l1) (mkOFile [] 0)).
      assert (Sub : forall w, In w (last_writes AsBuilt (d_env st) l1) -> In w (last_writes AsBuilt (d_env st) (d_done st))).
      { apply last_sub. intros q Hq. rewrite El. apply in_or_app. left. exact Hq. }
      apply Un; apply Forall_app; split; auto.
      * apply first_good; auto with zarith.
      * apply Forall_forall. intros w Hw. unfold writes in A3. apply Forall_app in A3. destruct A3 as [_ A3].
        rewrite Forall_forall in A3. auto.
      * apply Forall_forall. intros w Hw. rewrite Forall_forall in OkL. auto.
    + eexists. unfold assemble_io. rewrite R1. cbn [bind].
      rewrite (u_curr _ _ Qr), Nat2Z.id, Q1. cbn [bind]. split; [reflexivity|].
      cbn [exit_io fclose_io no_fault xi_seen io_seen]. constructor; [|exact Q3]. rewrite Q2.
      pose proof (writes_image _ A3) as K. pose proof (file_writes st code Gd Sd D) as K2.
      rewrite last_writes_file, (FO _ A1). unfold do_writes. rewrite <- fold_left_app. fold (writes AsBuilt st).
      apply Un; [exact A3|]. unfold writes. apply Forall_app. auto.
Qed.
