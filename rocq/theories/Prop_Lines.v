(** Prop_Lines.v -- C12, C13, C19, C22, C23: an instruction line, after some accepted lines. *)
From Verif Require Import Base Proof_Base Model_Opcode Model_SymbolTable Model_Generator Model_ForwardRef Model_Main Spec_Isa Spec_Text Spec_Asm
  Spec_Report Proof_Opcode Proof_Lex2 Proof_Fun Proof_Core Proof_Sim2 Proof_Run Proof_Source Proof_Modes Spec_Diag Spec_Prog Proof_Diag Proof_Whole Proof_Ref Proof_Image
  Proof_Regular Proof_At Proof_Prog Proof_Kept Proof_Check Prop_State Prop_Program Prop_Code.

(** [line] is a line of the source, the lines [pre] in front of it have been read without
    an error, the assembler is in the state [st] *)
Definition in_front (file : text) (pre : list text) (line : text) (post : list text) (src : text) (st : St) : Prop :=
  source_of (pre ++ line :: post) src /\ small src /\ read_lines file pre st /\
  exists p, Forall2 line_means pre p /\ ~ In SEnd p.

(** the report of an error in that line, and failure *)
Definition rejected (file : text) (pre : list text) (line src : text) (m : string) (pos : option nat) : Prop :=
  exists o, gaia file src = Ret o /\ exit_code o = 1 /\
    Report file (1 + Z.of_nat (List.length pre)) m (before_nul line) pos (stdout o).

(** the label of an instruction is not defined yet *)
Definition fresh (e : env) (lab : option text) : Prop := forall l, lab = Some l -> lookup e l = None.

(** ** Equal maps *)
Definition same_env (e e' : env) : Prop := forall n, lookup e n = lookup e' n.

Lemma has_labels_same : forall st e e', has_labels st e -> has_labels st e' -> same_env e e'.
Proof.
  intros st e e' [N0 H0] [N1 H1] n. pose proof (H0 n) as A. rewrite H1 in A. injection A as A.
  pose proof (N0 n) as N0n. pose proof (N1 n) as N1n.
  destruct (lookup e n) as [v|], (lookup e' n) as [w|]; try congruence; exfalso.
  - specialize (N0n _ eq_refl). subst v. revert N0n. vm_compute. auto.
  - specialize (N1n _ eq_refl). subst w. revert N1n. vm_compute. auto.
Qed.

Lemma same_own : forall e e' lab a, same_env e e' -> same_env (with_own lab a e) (with_own lab a e').
Proof. intros e e' [l|] a H n; cbn [with_own lookup]; [destruct (text_eqb l n)|]; auto. Qed.

Lemma same_value : forall e e' o, same_env e e' -> value_of e o = value_of e' o.
Proof. intros e e' o H. unfold value_of. destruct (operand_expr o) as [[v|n]|]; cbn [eval]; auto. Qed.

Lemma same_unresolved : forall e e' o, same_env e e' -> unresolved e o = unresolved e' o.
Proof. intros e e' o H. unfold unresolved. destruct (operand_expr o) as [[v|n]|]; auto. rewrite H. reflexivity. Qed.

Lemma same_encode : forall r e e' it, same_env e e' -> encode_operand r e it = encode_operand r e' it.
Proof. intros r e e' it H. unfold encode_operand. destruct (it_expr it) as [[v|n]|]; cbn [eval]; auto. rewrite H. reflexivity. Qed.

(** ** The state in front of the line *)
Lemma front_state : forall file pre line post src st e, in_front file pre line post src st -> has_labels st e ->
  exists p sd, Forall2 line_means pre p /\ ~ In SEnd p /\ state_after AsBuilt p = Some sd /\ st_pc st = d_addr sd /\
    st_out st = file_of (d_done sd) /\ same_env e (d_env sd) /\ zlen pre = zlen p.
Proof.
  intros file pre line post src st e (HS & HB & HR & p & HM & HE) HL.
  destruct (read_state _ _ _ _ HR HM HE) as (sd & E & Pc & _ & _ & O & _ & _ & L).
  exists p, sd. do 5 (split; [assumption|]). split; [eapply has_labels_same; eauto|].
  unfold zlen. rewrite (Forall2_len _ _ _ _ _ HM). reflexivity.
Qed.

(** an error of the line *)
Lemma line_rejected : forall file pre line post src st e toks lab m o msg w, in_front file pre line post src st -> has_labels st e ->
  Lexes literal16 true 0 line toks -> Line (map fst toks) (SInstr lab m o) -> fresh e lab ->
  (forall n sd, same_env (with_own lab (st_pc st) e) (d_env sd) -> d_addr sd = st_pc st -> diag_instr AsBuilt n sd m o = inr (msg, w)) ->
  rejected file pre line src msg (place_offset toks w).
Proof.
  intros file pre line post src st e toks lab m o msg w HF HL Hx HG Fr HD.
  destruct (front_state _ _ _ _ _ _ _ HF HL) as (p & sd & HM & HE & E & Pc & _ & Se & _).
  destruct HF as (HS & HB & _).
  destruct (at_semantic_error file pre line post src p sd HS HM E HB toks (SInstr lab m o) msg w Hx HG) as (out & A & B & C & _).
  - rewrite diag_stmt_instr by (intros l Hl; rewrite <- Se; apply Fr; exact Hl). apply HD; cbn [d_env d_addr]; [|auto].
    rewrite Pc. apply same_own, Se.
  - exists out. auto.
Qed.

Lemma source_front : forall lines rest src, source_of (lines ++ rest) src -> Forall fits lines.
Proof. intros lines rest src [H _]. apply Forall_app in H. tauto. Qed.

(** the line is accepted *)
Lemma line_accepted : forall file pre line post src st e toks lab m o it bytes, in_front file pre line post src st -> has_labels st e ->
  small (join (pre ++ [line])) ->
  Lexes literal16 true 0 line toks -> Line (map fst toks) (SInstr lab m o) -> fresh e lab -> it_addr it = st_pc st ->
  (forall n sd, same_env (with_own lab (st_pc st) e) (d_env sd) -> d_addr sd = st_pc st ->
     diag_instr AsBuilt n sd m o = inl (mkD (d_addr sd + it_size it) (d_env sd) (d_done sd ++ [mkPlaced n it bytes]))) ->
  exists st' sd, read_lines file (pre ++ [line]) st' /\ st_pc st' = st_pc st + it_size it /\
    st_out st = file_of (d_done sd) /\
    st_out st' = file_step (st_out st) (mkPlaced (1 + zlen pre) it bytes) /\
    has_labels st' (with_own lab (st_pc st) e).
Proof.
  intros file pre line post src st e toks lab m o it bytes HF HL Hsm Hx HG Fr Ha HD.
  destruct (front_state _ _ _ _ _ _ _ HF HL) as (p & sd & HM & HE & E & Pc & O & Se & Zl).
  destruct HF as (HS & HB & _).
  assert (Dg : diag_stmt AsBuilt (1 + zlen pre) sd (SInstr lab m o) =
    inl (mkD (st_pc st + it_size it) (with_own lab (d_addr sd) (d_env sd)) (d_done sd ++ [mkPlaced (1 + zlen pre) it bytes]))).
  { rewrite diag_stmt_instr by (intros l Hl; rewrite <- Se; apply Fr; exact Hl).
    rewrite HD; cbn [d_env d_addr d_done]; [rewrite Pc; reflexivity| |auto]. rewrite Pc. apply same_own, Se. }
  assert (HM' : Forall2 line_means (pre ++ [line]) (p ++ [SInstr lab m o])).
  { apply Forall2_app; [exact HM|]. constructor; [|constructor]. exists toks. auto. }
  assert (HE' : ~ In SEnd (p ++ [SInstr lab m o])) by (intro K; apply in_app_or in K; destruct K as [K|[K|[]]]; [auto|discriminate]).
  assert (E' : state_after AsBuilt (p ++ [SInstr lab m o]) = Some (mkD (st_pc st + it_size it) (with_own lab (d_addr sd) (d_env sd)) (d_done sd ++ [mkPlaced (1 + zlen pre) it bytes]))).
  { unfold state_after in *. rewrite accepts_app, E. cbn [accepts]. rewrite <- Zl, Dg. reflexivity. }
  assert (Fi : Forall fits (pre ++ [line])).
  { apply (source_front _ post src). rewrite <- app_assoc. exact HS. }
  destruct (state_read file _ _ _ Fi Hsm HM' E') as (st' & R').
  destruct (read_state _ _ _ _ R' HM' HE') as (sd' & E2 & Pc' & _ & _ & O' & _ & _ & L').
  rewrite E' in E2. injection E2 as <-. cbn [d_addr d_env d_done] in *.
  exists st', sd. split; [exact R'|]. split; [exact Pc'|]. split; [exact O|]. split.
  - rewrite O', file_of_app, <- O. reflexivity.
  - destruct L' as [L1 L2]. pose proof (same_own _ _ lab (st_pc st) Se) as Sw. rewrite <- Pc in L1, L2.
    split; [intros n v K; apply (L1 n); rewrite <- Sw; exact K|]. intro n. rewrite L2, Sw. reflexivity.
Qed.

(** ** The bytes written *)
Lemma write_overwritten : forall f a bs, 0 <= a -> bs <> [] -> Forall is_byte bs ->
  overwritten (of_data f) (of_data (write_at f a bs)) a bs.
Proof.
  intros f a bs Ha N B. destruct (fputs_spec bs (fseek f a) Ha B) as (_ & L & G). destruct bs as [|b bs]; [congruence|].
  split; [exact L|]. exact G.
Qed.

Lemma st_pc_pos : forall file pre line post src st e, in_front file pre line post src st -> has_labels st e -> 0 <= st_pc st.
Proof.
  intros file pre line post src st e HF HL. destruct (front_state _ _ _ _ _ _ _ HF HL) as (p & sd & HM & HE & E & Pc & _).
  destruct (state_after_pass1 _ _ _ E) as (P & _). destruct (program_bounds _ _ _ (lines_16 _ _ HM) P) as [B _]. cbn in B. lia.
Qed.

Lemma branch_listed : forall m, is_branch_name m = true -> exists op, listed m REL = Some (op, 2).
Proof.
  intros m Br. unfold is_branch_name in Br. apply existsb_exists in Br. destruct Br as (x & Hx & Ex). apply String.eqb_eq in Ex. subst x.
  cbn [In] in Hx. repeat (destruct Hx as [<- |Hx]; [eexists; reflexivity|]). destruct Hx.
Qed.

(** ** C12: the addressing mode, when the operand is known *)
Definition in_range_of (e : env) (pc : Z) (m : string) (o : operand) : Prop :=
  is_branch_name m = true -> forall n v, operand_expr o = Some (Lab n) -> lookup e n = Some v -> -128 <= v - (pc + 2) <= 127.

Lemma value_none : forall e o, unresolved e o = false -> value_of e o = None -> operand_expr o = None.
Proof.
  intros e o U V. unfold unresolved, value_of in *. destruct (operand_expr o) as [[v|n]|]; cbn [eval] in V; [discriminate| |reflexivity].
  destruct (lookup e n); discriminate.
Qed.

Lemma resolved_listed : forall e m o md, unresolved e o = false -> denoted_mode m o (value_of e o) = Some md ->
  has_mode AsBuilt m md (match value_of e o with Some _ => true | None => false end) = listed m md.
Proof.
  intros e m o md U D. unfold has_mode. destruct (listed m md) as [[op size]|]; [reflexivity|].
  destruct (value_of e o) as [v|] eqn:V.
  - destruct md; try reflexivity; rewrite andb_false_r; reflexivity.
  - pose proof (value_none _ _ U V) as N. destruct md; try reflexivity; exfalso; unfold denoted_mode in D;
      destruct o; try discriminate; destruct (is_branch_name m), (is_jump_name m); try discriminate; destruct (existsb _ _); discriminate.
Qed.

(** not a mode of the instruction: rejected *)
Theorem C12_rejected : forall file pre line post src st e toks lab m o,
  in_front file pre line post src st -> has_labels st e ->
  Lexes literal16 true 0 line toks -> Line (map fst toks) (SInstr lab m o) -> fresh e lab ->
  unresolved (with_own lab (st_pc st) e) o = false ->
  (forall md opc, denoted_mode m o (value_of (with_own lab (st_pc st) e) o) = Some md -> ~ documented m md opc) ->
  rejected file pre line src "illegal addressing mode" None.
Proof.
  intros file pre line post src st e toks lab m o HF HL Hx HG Fr U HD.
  change (@None nat) with (place_offset toks Nowhere). eapply line_rejected; eauto.
  intros n sd Se Pc. unfold diag_instr. rewrite <- (same_unresolved _ _ _ Se), <- (same_value _ _ _ Se), U. cbn [andb].
  destruct (denoted_mode m o _) as [md|] eqn:D; [|reflexivity]. rewrite (resolved_listed _ _ _ _ U D).
  destruct (listed m md) as [[opc size]|] eqn:L; [|reflexivity].
  exfalso. apply (HD md opc eq_refl). exists size. apply listed_in. exact L.
Qed.

(** a mode of the instruction: its opcode and the operand are written *)
Theorem C12_accepted : forall file pre line post src st e toks lab m o md opc,
  in_front file pre line post src st -> has_labels st e -> small (join (pre ++ [line])) ->
  Lexes literal16 true 0 line toks -> Line (map fst toks) (SInstr lab m o) -> fresh e lab ->
  unresolved (with_own lab (st_pc st) e) o = false ->
  denoted_mode m o (value_of (with_own lab (st_pc st) e) o) = Some md -> documented m md opc ->
  in_range_of (with_own lab (st_pc st) e) (st_pc st) m o ->
  exists st' bs, read_lines file (pre ++ [line]) st' /\
    Z.of_nat (List.length bs) = operand_bytes md /\ st_pc st' = st_pc st + 1 + operand_bytes md /\
    overwritten (of_data (st_out st)) (of_data (st_out st')) (st_pc st) (opc :: bs) /\
    match operand_expr o with
    | None => bs = []
    | Some x => exists v, eval (with_own lab (st_pc st) e) x = Some v /\
        (v <= 0xFFFF -> (is_branch_name m = true -> match x with Num _ => v <= 0xFF | _ => True end) ->
         operand_holds (st_pc st) md x v bs)
    end.
Proof.
  intros file pre line post src st e toks lab m o md opc HF HL Hsm Hx HG Fr U D (size & HIn) Rg.
  apply in_listed in HIn. pose proof (listed_size _ _ _ _ HIn) as Sz. destruct (listed_bytes _ _ _ _ HIn) as [_ Opb].
  set (e' := with_own lab (st_pc st) e) in *. set (it := mkItem (st_pc st) m md opc size (operand_expr o)).
  assert (S16 : stmt16 (SInstr lab m o)) by (eapply line_means_16; exists toks; eauto).
  assert (En : exists bs, encode_operand AsBuilt e' it = Some bs /\ Z.of_nat (List.length bs) = operand_bytes md).
  { unfold encode_operand, it. cbn [it_expr it_mode it_addr]. unfold unresolved in U.
    destruct (operand_expr o) as [x|] eqn:Eo.
    - assert (exists v, eval e' x = Some v) as (v & Ev).
      { destruct x as [w|n]; cbn [eval]; [eauto|]. destruct (lookup e' n); [eauto|discriminate]. }
      rewrite Ev. assert (md <> ACC /\ md <> IMP) as [N1 N2].
      { split; intros ->; [pose proof (denoted_narrow _ _ _ _ D (or_introl eq_refl))|pose proof (denoted_narrow _ _ _ _ D (or_intror eq_refl))]; congruence. }
      destruct md; try congruence; try (eexists; split; [reflexivity|reflexivity]).
      destruct x as [w|n]; [destruct (v <=? 255); eexists; (split; [reflexivity|reflexivity])|]. cbn zeta.
      cbn [eval] in Ev. destruct (denoted_rel _ _ _ D) as (Br & _). specialize (Rg Br n v Eo Ev).
      destruct (Z.leb_spec (-128) (v - (st_pc st + 2))), (Z.leb_spec (v - (st_pc st + 2)) 127); try lia. cbn [andb]. eexists; split; reflexivity.
    - exists []. split; [reflexivity|]. unfold denoted_mode in D. destruct o; try discriminate; destruct (is_branch_name m), (is_jump_name m); try discriminate.
      + destruct (existsb _ _); injection D as <-; reflexivity.
      + injection D as <-; reflexivity. }
  destruct En as (bs & En & Lb).
  destruct (line_accepted file pre line post src st e toks lab m o it (Some bs) HF HL Hsm Hx HG Fr eq_refl) as (st' & sd & R' & Pc' & _ & O' & _).
  { intros n sd Se Pc. unfold diag_instr. rewrite <- (same_unresolved _ _ _ Se), <- (same_value _ _ _ Se). fold e'. rewrite U. cbn [andb].
    rewrite D, (resolved_listed _ _ _ _ U D), HIn. rewrite Pc. fold it. rewrite <- (same_encode _ _ _ _ Se). fold e'. rewrite En. reflexivity. }
  exists st', bs. split; [exact R'|]. split; [exact Lb|]. split; [rewrite Pc'; unfold it; cbn [it_size]; lia|].
  assert (V0 : forall x v, operand_expr o = Some x -> eval e' x = Some v -> 0 <= v).
  { intros [w|n] v Eo Ev; cbn [eval] in Ev.
    - injection Ev as <-. cbn in S16. rewrite Eo in S16. cbn in S16. lia.
    - pose proof (st_pc_pos _ _ _ _ _ _ _ HF HL). destruct HL as [L0 _]. unfold e' in Ev. destruct lab as [l|]; cbn [with_own lookup] in Ev; [|eauto].
      destruct (text_eqb l n); [injection Ev as <-; assumption|eauto]. }
  split.
  - rewrite O'. unfold file_step. cbn [pl_bytes pl_item]. change (it_addr it) with (st_pc st). change (it_opcode it) with opc.
    apply write_overwritten; [eapply st_pc_pos; eauto|discriminate|]. constructor; [exact Opb|].
    eapply encode_bytes; [exact En|]. intros v K. change (operand_expr o = Some (Num v)) in K. apply (V0 _ v K). reflexivity.
  - destruct (operand_expr o) as [x|] eqn:Eo.
    2:{ unfold encode_operand, it in En. cbn [it_expr] in En. rewrite Eo in En || idtac. injection En as <-. reflexivity. }
    assert (exists v, eval e' x = Some v) as (v & Ev).
    { unfold unresolved in U. rewrite Eo in U. destruct x as [w|n]; cbn [eval]; [eauto|]. destruct (lookup e' n); [eauto|discriminate]. }
    exists v. split; [exact Ev|]. intros Hv Hbr.
    pose proof (encode_holds AsBuilt e' it x v bs En eq_refl Ev (conj (V0 _ _ eq_refl Ev) Hv)) as Q. apply Q. clear Q.
    assert (W : value_of e' o = Some v) by (unfold value_of; rewrite Eo; exact Ev). rewrite W in D.
    pose proof (denoted_small _ _ _ _ D) as Sm. pose proof (denoted_narrow _ _ _ _ D) as Nw. rewrite Eo in Nw.
    unfold it. cbn [it_mode].
    destruct md; auto; try (discriminate (Nw (or_introl eq_refl))); try (discriminate (Nw (or_intror eq_refl))).
    apply Hbr. destruct (denoted_rel _ _ _ D) as (B & _). exact B.
Qed.

(** one mode only, by definition of [denoted_mode]: the operand's syntax and the value decide *)

(** ** C22: a branch to a known label *)
Lemma operand_label : forall toks lab m o n, Line (map fst toks) (SInstr lab m o) -> operand_expr o = Some (Lab n) ->
  exists q, place_offset toks AtOperand = Some q /\ In (TLabel n, q) toks.
Proof.
  intros toks lab m o n H E. destruct (Line_instr_inv _ _ _ _ H) as (l & Et & Ho).
  assert (K : exists l1 l2, l = l1 ++ TLabel n :: l2 /\ forall t, In t l2 -> match t with TLabel _ => False | _ => True end).
  { destruct Ho as [| |t e He|t e He|t e He|t e He|t e He|t e He|t e He]; cbn in E; try discriminate; injection E as ->; inversion He; subst;
      first [exists [], []; split; [reflexivity|intros ? []]
            |exists [], [TComma; TX]; split; [reflexivity|cbn; intros t [<-|[<-|[]]]; exact I]
            |exists [], [TComma; TY]; split; [reflexivity|cbn; intros t [<-|[<-|[]]]; exact I]
            |exists [TImmediate], []; split; [reflexivity|intros ? []]
            |idtac].
    all: try (eexists [_], _; split; [reflexivity|cbn; intuition (subst; exact I)]). }
  destruct K as (l1 & l2 & -> & N).
  assert (Q : exists a q b, toks = a ++ (TLabel n, q) :: b /\ forall t, In t b -> is_label t = false).
  { rewrite app_comm_cons, app_assoc in Et. revert Et. generalize (lab_toks lab ++ TMnemonic m :: l1). intros front Et.
    apply map_eq_app in Et. destruct Et as (a & b & -> & _ & Eb). destruct b as [|[t q] b]; [discriminate|].
    cbn [map fst] in Eb. injection Eb as -> Eb. exists a, q, b. split; [reflexivity|].
    intros [t q'] Ht. assert (In t l2) as Ht2 by (rewrite <- Eb; apply (in_map fst) in Ht; exact Ht).
    specialize (N t Ht2). unfold is_label. cbn [fst]. destruct t; try reflexivity. destruct N. }
  destruct Q as (a & q & b & -> & Nb). exists q. split; [|apply in_or_app; right; left; reflexivity].
  cbn [place_offset]. rewrite filter_app. cbn [filter is_label fst].
  assert (filter is_label b = []) as ->.
  { clear - Nb. induction b as [|x b IH]; [reflexivity|]. cbn [filter]. rewrite (Nb x) by (left; reflexivity). apply IH. intros; apply Nb; right; assumption. }
  rewrite rev_app_distr. reflexivity.
Qed.

Theorem C22_too_far : forall file pre line post src st e toks lab m n v,
  in_front file pre line post src st -> has_labels st e ->
  Lexes literal16 true 0 line toks -> Line (map fst toks) (SInstr lab m (ODir (Lab n))) -> fresh e lab ->
  is_branch_name m = true -> lookup (with_own lab (st_pc st) e) n = Some v ->
  ~ (-128 <= v - (st_pc st + 2) <= 127) ->
  exists q, In (TLabel n, q) toks /\ rejected file pre line src "branch offset too far away" (Some q).
Proof.
  intros file pre line post src st e toks lab m n v HF HL Hx HG Fr Br Lv Far.
  destruct (operand_label _ _ _ _ n HG eq_refl) as (q & Eq & Hq). exists q. split; [exact Hq|]. rewrite <- Eq.
  eapply line_rejected; eauto.
  intros k sd Se Pc. unfold diag_instr. rewrite <- (same_unresolved _ _ _ Se), <- (same_value _ _ _ Se).
  unfold unresolved, value_of. cbn [operand_expr eval]. rewrite Lv. cbn [andb]. unfold denoted_mode. rewrite Br.
  unfold has_mode. assert (exists op size, listed m REL = Some (op, size)) as (op & size & ->).
  { destruct (branch_listed m Br) as (x & ->). eauto. }
  unfold encode_operand. cbn [it_expr eval it_mode it_addr]. rewrite <- Se, Lv, Pc. cbn zeta.
  destruct (Z.leb_spec (-128) (v - (st_pc st + 2))), (Z.leb_spec (v - (st_pc st + 2)) 127); try reflexivity. lia.
Qed.

(** in range: it is accepted (by C12) and the byte leads to the label *)
Theorem C22_in_range : forall file pre line post src st e toks lab m n v,
  in_front file pre line post src st -> has_labels st e -> small (join (pre ++ [line])) ->
  Lexes literal16 true 0 line toks -> Line (map fst toks) (SInstr lab m (ODir (Lab n))) -> fresh e lab ->
  is_branch_name m = true -> lookup (with_own lab (st_pc st) e) n = Some v ->
  -128 <= v - (st_pc st + 2) <= 127 ->
  exists st' opc b, read_lines file (pre ++ [line]) st' /\ documented m REL opc /\
    overwritten (of_data (st_out st)) (of_data (st_out st')) (st_pc st) [opc; b] /\
    0 <= b < 256 /\ st_pc st + 2 + signed_byte b = v.
Proof.
  intros file pre line post src st e toks lab m n v HF HL Hsm Hx HG Fr Br Lv Rg.
  assert (exists op size, listed m REL = Some (op, size)) as (op & size & L).
  { destruct (branch_listed m Br) as (x & ->). eauto. }
  set (it := mkItem (st_pc st) m REL op size (Some (Lab n))).
  set (b := (v - (st_pc st + 2)) mod 256).
  destruct (line_accepted file pre line post src st e toks lab m (ODir (Lab n)) it (Some [b]) HF HL Hsm Hx HG Fr eq_refl) as (st' & sd & R' & _ & _ & O' & _).
  { intros k sd Se Pc. unfold diag_instr. rewrite <- (same_unresolved _ _ _ Se), <- (same_value _ _ _ Se).
    unfold unresolved, value_of. cbn [operand_expr eval]. rewrite Lv. cbn [andb]. unfold denoted_mode. rewrite Br.
    unfold has_mode. rewrite L. rewrite Pc. fold it.
    unfold encode_operand. unfold it at 1 2 3 4 5. cbn [it_expr eval it_mode it_addr]. rewrite <- Se, Lv. cbn zeta.
    destruct (Z.leb_spec (-128) (v - (st_pc st + 2))), (Z.leb_spec (v - (st_pc st + 2)) 127); try lia. reflexivity. }
  destruct (signed_mod (v - (st_pc st + 2)) Rg) as [B1 B2]. fold b in B1, B2. destruct (listed_bytes _ _ _ _ L) as [_ Opb].
  exists st', op, b. split; [exact R'|]. split; [exists size; apply listed_in; exact L|]. split; [|split; [exact B1|lia]].
  rewrite O'. unfold file_step. cbn [pl_bytes pl_item]. apply write_overwritten; [eapply st_pc_pos; eauto|discriminate|].
  constructor; [exact Opb|]. constructor; [exact B1|constructor].
Qed.

(** ** C13: the addressing mode of a forward reference *)
(** the forms documented: a branch or JSR or JMP to a label, and JMP through a label *)
Definition forward_form (m : string) (o : operand) : option mode :=
  match o with
  | ODir _ => if is_branch_name m then Some REL else if is_jump_name m then Some ABS else None
  | OInd _ => if String.eqb m "JMP" then Some IND else None
  | _ => None
  end.

Lemma jump_cases : forall m, is_jump_name m = true -> m = "JMP"%string \/ m = "JSR"%string.
Proof.
  intros m H. unfold is_jump_name in H. cbn [existsb] in H.
  destruct (String.eqb_spec m "JMP"); [auto|]. destruct (String.eqb_spec m "JSR"); [auto|discriminate].
Qed.

Theorem C13_accepted : forall file pre line post src st e toks lab m o md,
  in_front file pre line post src st -> has_labels st e -> small (join (pre ++ [line])) ->
  Lexes literal16 true 0 line toks -> Line (map fst toks) (SInstr lab m o) -> fresh e lab ->
  unresolved (with_own lab (st_pc st) e) o = true -> forward_form m o = Some md ->
  exists st' opc size, read_lines file (pre ++ [line]) st' /\ listed m md = Some (opc, size) /\
    st_pc st' = st_pc st + size /\ has_labels st' (with_own lab (st_pc st) e).
Proof.
  intros file pre line post src st e toks lab m o md HF HL Hsm Hx HG Fr U Fm.
  assert (K : exists op size, listed m md = Some (op, size) /\ denoted_mode m o None = Some md /\ (is_branch_name m || is_jump_name m) = true).
  { unfold forward_form in Fm. unfold denoted_mode. destruct o; try discriminate.
    - destruct (is_branch_name m) eqn:Br.
      + injection Fm as <-. destruct (branch_listed _ Br) as (op & ->). eauto.
      + destruct (is_jump_name m) eqn:Jm; [|discriminate]. injection Fm as <-.
        destruct (jump_cases _ Jm) as [-> | ->]; do 2 eexists; (split; [reflexivity|auto]).
    - destruct (String.eqb_spec m "JMP"); [|discriminate]. subst. injection Fm as <-. do 2 eexists. split; [reflexivity|]. split; reflexivity. }
  destruct K as (op & size & L & D & Bj).
  set (it := mkItem (st_pc st) m md op size (operand_expr o)).
  assert (Vn : value_of (with_own lab (st_pc st) e) o = None).
  { unfold unresolved in U. unfold value_of. destruct (operand_expr o) as [[w|n]|]; try discriminate. cbn [eval]. destruct (lookup _ n); [discriminate|reflexivity]. }
  destruct (line_accepted file pre line post src st e toks lab m o it None HF HL Hsm Hx HG Fr eq_refl) as (st' & sd & R' & Pc' & _ & _ & L').
  { intros k sd Se Pc. unfold diag_instr. rewrite <- (same_unresolved _ _ _ Se), <- (same_value _ _ _ Se), U, Bj, Vn, D. cbn [andb negb].
    unfold has_mode. rewrite L. rewrite Pc. reflexivity. }
  exists st', op, size. auto.
Qed.

(** any other form is rejected, but JMP with an index register *)
Theorem C13_rejected_partial : forall file pre line post src st e toks lab m o,
  in_front file pre line post src st -> has_labels st e ->
  Lexes literal16 true 0 line toks -> Line (map fst toks) (SInstr lab m o) -> fresh e lab ->
  unresolved (with_own lab (st_pc st) e) o = true -> is_branch_name m = true \/ is_jump_name m = true ->
  forward_form m o = None ->
  (m = "JMP"%string -> forall x, o <> ODirX x /\ o <> ODirY x) ->
  rejected file pre line src "illegal addressing mode" None.
Proof.
  intros file pre line post src st e toks lab m o HF HL Hx HG Fr U Bj Fm HJ.
  change (@None nat) with (place_offset toks Nowhere). eapply line_rejected; eauto.
  assert (Bj' : (is_branch_name m || is_jump_name m)%bool = true) by (apply orb_true_iff; exact Bj).
  assert (Vn : value_of (with_own lab (st_pc st) e) o = None).
  { unfold unresolved in U. unfold value_of. destruct (operand_expr o) as [[w|n]|]; try discriminate. cbn [eval]. destruct (lookup _ n); [discriminate|reflexivity]. }
  intros n sd Se Pc. unfold diag_instr. rewrite <- (same_unresolved _ _ _ Se), <- (same_value _ _ _ Se), U, Bj', Vn. cbn [andb negb].
  destruct (denoted_mode m o None) as [md|] eqn:D; [|reflexivity].
  assert (has_mode AsBuilt m md false = None) as ->; [|reflexivity].
  unfold denoted_mode in D. unfold forward_form in Fm. destruct (is_branch_name m) eqn:Br.
  - destruct o; discriminate.
  - destruct (is_jump_name m) eqn:Jm; [|destruct Bj; discriminate].
    destruct (jump_cases _ Jm) as [-> | ->].
    + destruct o; try discriminate; destruct (HJ eq_refl e0); congruence.
    + destruct o; try discriminate; injection D as <-; reflexivity.
Qed.

(** JMP with an index register is accepted *)
Theorem C13_refuted : exists file src p o, program_means src p /\ gaia file src = Ret o /\ exit_code o = 0 /\
  nth_error p 0 = Some (SInstr None "JMP" (ODirX (Lab (T "FWD")))) /\ forward AsBuilt p 0 /\
  forall op, ~ documented "JMP" ABSX op.
Proof.
  set (lines := [T " JMP FWD,X"; T "FWD NOP"]).
  exists (T "a.asm"), (join lines). destruct (statements lines) as [p|] eqn:E; [|vm_compute in E; discriminate].
  destruct (program_check lines p ltac:(vm_compute; reflexivity) E) as (_ & _ & M).
  vm_compute in E. injection E as <-.
  eexists _, _. split; [exact M|]. split; [vm_compute; reflexivity|]. split; [reflexivity|].
  split; [reflexivity|]. split; [apply forwardb_ok; vm_compute; reflexivity|].
  intros op (b & H). apply in_listed in H. vm_compute in H. discriminate.
Qed.

(** ** C19: labels that are not defined *)
(** before their definition, labels may only be the operand of a branch or jump *)
Theorem C19_illegal_forward : forall file pre line post src st e toks lab m o n,
  in_front file pre line post src st -> has_labels st e ->
  Lexes literal16 true 0 line toks -> Line (map fst toks) (SInstr lab m o) -> fresh e lab ->
  operand_expr o = Some (Lab n) -> lookup (with_own lab (st_pc st) e) n = None ->
  is_branch_name m = false -> is_jump_name m = false ->
  exists q, In (TLabel n, q) toks /\ rejected file pre line src "illegal forward reference" (Some q).
Proof.
  intros file pre line post src st e toks lab m o n HF HL Hx HG Fr Eo Ln Br Jm.
  destruct (operand_label _ _ _ _ n HG Eo) as (q & Eq & Hq). exists q. split; [exact Hq|]. rewrite <- Eq.
  eapply line_rejected; eauto.
  intros k sd Se Pc. unfold diag_instr. rewrite <- (same_unresolved _ _ _ Se). unfold unresolved. rewrite Eo, Ln, Br, Jm. reflexivity.
Qed.

(** an operand whose label is never defined makes the assembly fail *)
Theorem C19_undefined_fails : forall file src p k lab m o n, program_means src p -> small src ->
  nth_error (body p) k = Some (SInstr lab m o) -> operand_expr o = Some (Lab n) ->
  (forall s, In s (body p) -> defines s <> Some n) ->
  exists out, gaia file src = Ret out /\ exit_code out = 1.
Proof.
  intros file src p k lab m o n HM HB K Eo Nd. destruct (program_cases file src p HM HB) as
    [(st & code & bin & A & R & _)|(n' & m' & w & out & _ & _ & _ & _ & _ & E & X & _)].
  - exfalso. destruct (instr_piece _ _ _ _ _ _ _ R K) as (a & e & fin & md & opc & size & bs & E1 & E2 & E3 & Ex & D & H & En & N).
    unfold encode_operand in En. cbn [it_expr] in En. rewrite Eo in En. cbn [eval] in En.
    destruct (lookup fin n) as [v|] eqn:Lv; [|discriminate].
    destruct (label_place _ _ _ _ _ E3 Lv) as (j & s & c & J1 & J2 & _). apply (Nd s); [eapply nth_error_In; eauto|exact J2].
  - eauto.
Qed.

(** the report at the end: the first forward reference that cannot be completed *)
Definition completes (p : list stmt) (fin : env) (j : nat) : Prop :=
  forall lab m o n a, nth_error (body p) j = Some (SInstr lab m o) -> operand_expr o = Some (Lab n) -> address AsBuilt p j = Some a ->
    exists v, lookup fin n = Some v /\ (is_branch_name m = true -> -128 <= v - (a + 2) <= 127).

Lemma complete_first : forall r e l1 pl l2,
  Forall (fun q => pl_bytes q = None -> encode_operand r e (pl_item q) <> None) l1 ->
  pl_bytes pl = None -> encode_operand r e (pl_item pl) = None ->
  complete r e (l1 ++ pl :: l2) = inr (pl_line pl,
    match (match it_expr (pl_item pl) with Some x => eval e x | None => None end) with
    | None => "label definition was not found"%string | Some _ => "branch offset too far away"%string end).
Proof.
  intros r e l1 pl l2 F Hb He. induction F as [|q l1 H F IH]; cbn [app complete].
  - rewrite Hb, He. reflexivity.
  - rewrite IH. destruct (pl_bytes q); [reflexivity|]. destruct (encode_operand r e (pl_item q)); [reflexivity|]. exfalso. apply H; reflexivity.
Qed.

Lemma accepts_diag : forall r p n st st', accepts r n st (body p) = Some st' -> diag_from r n st p = d_close r st'.
Proof.
  induction p as [|s p IH]; intros n st st' H.
  - injection H as <-. reflexivity.
  - destruct s; cbn [body accepts diag_from] in *; try (injection H as <-; reflexivity);
      match type of H with match ?d with _ => _ end = _ => destruct d as [st1|] end; try discriminate; apply IH; exact H.
Qed.

Lemma final_state : forall p fin, pass1_program AsBuilt p = Some fin -> forall st, state_after AsBuilt (body p) = Some st ->
  p1_of st = fin.
Proof.
  intros p fin P st E. destruct (state_after_pass1 _ _ _ E) as (Q & _). unfold pass1_program in *. rewrite pass1_body in P. congruence.
Qed.

(** a forward reference has a mode whose only failures are these two *)
Lemma open_encode : forall r e a m md op size n o, denoted_mode m o None = Some md -> operand_expr o = Some (Lab n) ->
  (exists v, lookup e n = Some v /\ (is_branch_name m = true -> -128 <= v - (a + 2) <= 127)) <->
  encode_operand r e (mkItem a m md op size (Some (Lab n))) <> None.
Proof.
  intros r e a m md op size n o D Eo. unfold encode_operand. cbn [it_expr eval it_mode it_addr].
  pose proof (denoted_open _ _ _ D ltac:(congruence)) as Op.
  destruct (lookup e n) as [v|]; [|split; [intros (v & K & _); discriminate|congruence]].
  assert (Br : md = REL <-> is_branch_name m = true).
  { unfold denoted_mode in D. split.
    - intros ->. destruct (is_branch_name m); [reflexivity|]. destruct (is_jump_name m); destruct o; discriminate.
    - intros E. rewrite E in D. destruct o; congruence. }
  destruct md; try (destruct Op; fail); try (split; [discriminate|intros _; exists v; split; [reflexivity|intro K; apply Br in K; discriminate]]).
  cbn zeta. split.
  - intros (w & E & K). injection E as <-. specialize (K (proj1 Br eq_refl)).
    destruct (Z.leb_spec (-128) (v - (a + 2))), (Z.leb_spec (v - (a + 2)) 127); try lia. discriminate.
  - intro K. exists v. split; [reflexivity|]. intros _.
    pose proof (Z.leb_spec (-128) (v - (a + 2))) as L1. pose proof (Z.leb_spec (v - (a + 2)) 127) as L2.
    destruct (-128 <=? v - (a + 2)), (v - (a + 2) <=? 127); cbn [andb] in K; try congruence. inversion L1; inversion L2; lia.
Qed.

Theorem report_at_end : forall file lines src p st fin k lab m o n a msg, source_of lines src -> small src -> Forall2 line_means lines p ->
  state_after AsBuilt (body p) = Some st -> labels AsBuilt p = Some fin ->
  (forall j, (j < k)%nat -> forward AsBuilt p j -> completes p fin j) ->
  nth_error (body p) k = Some (SInstr lab m o) -> forward AsBuilt p k -> operand_expr o = Some (Lab n) -> address AsBuilt p k = Some a ->
  match lookup fin n with
  | None => msg = "label definition was not found"%string
  | Some v => is_branch_name m = true /\ ~ (-128 <= v - (a + 2) <= 127) /\ msg = "branch offset too far away"%string
  end ->
  exists out line toks q, gaia file src = Ret out /\ exit_code out = 1 /\ nth_error lines k = Some line /\
    Lexes literal16 true 0 line toks /\ In (TLabel n, q) toks /\
    Report file (1 + Z.of_nat k) msg (before_nul line) (Some q) (stdout out).
Proof.
  intros file lines src p st fin k lab m o n a msg HS HB HM HA HF HC K FW Eo Ad Hmsg.
  assert (P : pass1_program AsBuilt p = Some (p1_of st)).
  { destruct (state_after_pass1 _ _ _ HA) as (Q & _). unfold pass1_program in *. rewrite pass1_body. exact Q. }
  assert (Ef : d_env st = fin) by (unfold labels in HF; rewrite P in HF; injection HF as <-; reflexivity).
  (* the placed instructions, without success of the whole *)
  assert (Pl : forall j lab m o, nth_error (body p) j = Some (SInstr lab m o) -> exists sd md op size pl,
    state_after AsBuilt (firstn j (body p)) = Some sd /\ 
    denoted_mode m o (value_of (with_own lab (d_addr sd) (d_env sd)) o) = Some md /\
    nth_error (d_done st) (instr_number p j) = Some pl /\ pl_line pl = 1 + Z.of_nat j /\
    pl_item pl = mkItem (d_addr sd) m md op size (operand_expr o) /\
    is_open pl = unresolved (with_own lab (d_addr sd) (d_env sd)) o).
  { clear - HA. intros k lab m o K. destruct (state_after_split AsBuilt _ _ _ _ K HA) as (sd & st' & E1 & E2 & E3).
    destruct (diag_stmt_instr_inv _ _ _ _ _ _ _ E2) as [N E4].
    set (e := with_own lab (d_addr sd) (d_env sd)) in *.
    assert (exists md op size pl,
      denoted_mode m o (value_of e o) = Some md /\
      d_done st' = d_done sd ++ [pl] /\ pl_line pl = 1 + Z.of_nat k /\
      pl_item pl = mkItem (d_addr sd) m md op size (operand_expr o) /\ is_open pl = unresolved e o)
      as (md & op & size & pl & B2 & B4 & B5 & B6 & B7).
    { unfold diag_instr in E4. cbn zeta in E4. cbn [d_env d_addr d_done] in E4.
      destruct (_ && _) eqn:F; [discriminate|]. destruct (denoted_mode m o (value_of e o)) as [md|] eqn:D; [|discriminate].
      destruct (has_mode AsBuilt m md _) as [[op size]|] eqn:Hm; [|discriminate].
      destruct (unresolved e o) eqn:U.
      - injection E4 as <-. exists md, op, size. eexists. cbn [d_done]. repeat (split; [first [reflexivity|eassumption]|]). reflexivity.
      - destruct (encode_operand AsBuilt e _) as [bs|]; [|discriminate]. injection E4 as <-.
        exists md, op, size. eexists. cbn [d_done]. repeat (split; [first [reflexivity|eassumption]|]). reflexivity. }
    exists sd, md, op, size, pl. split; [exact E1|]. split; [exact B2|]. split; [|auto].
    destruct (accepts_done _ _ _ _ _ E1) as (m1 & C1 & C2). destruct (accepts_done _ _ _ _ _ E3) as (m2 & C3 & _).
    cbn [d_done app] in C1. rewrite C3, B4, <- app_assoc. cbn [app]. rewrite C1.
    assert (instr_number p k = List.length m1) as -> by (unfold instr_number; rewrite <- C2; unfold zlen; lia).
    apply nth_app_mid. }
  assert (Fwd : forall j lab m o sd, nth_error (body p) j = Some (SInstr lab m o) -> state_after AsBuilt (firstn j (body p)) = Some sd ->
    address AsBuilt p j = Some (d_addr sd) /\ (unresolved (with_own lab (d_addr sd) (d_env sd)) o = true <-> forward AsBuilt p j)).
  { clear. intros j lab m o sd Hj E. destruct (state_after_pass1 _ _ _ E) as (Q & _).
    assert (A1 : address AsBuilt p j = Some (d_addr sd)) by (unfold address; rewrite Q; reflexivity).
    assert (A2 : labels_at AsBuilt p j = Some (d_env sd)) by (unfold labels_at; rewrite Q; reflexivity).
    split; [exact A1|]. split.
    - intro U. exists lab, m, o, (d_addr sd), (d_env sd). auto.
    - intros (lab' & m' & o' & a' & e' & H1 & H2 & H3 & H4). rewrite Hj in H1. injection H1 as <- <- <-.
      rewrite A1 in H2. rewrite A2 in H3. injection H2 as <-. injection H3 as <-. exact H4. }
  destruct (Pl _ _ _ _ K) as (sd & md & op & size & pl & S1 & S2 & S3 & S4 & S5 & S6).
  destruct (Fwd _ _ _ _ _ K S1) as [Ad' Fk]. rewrite Ad in Ad'. injection Ad' as ->.
  pose proof (proj2 Fk FW) as U.
  assert (Vn : value_of (with_own lab (d_addr sd) (d_env sd)) o = None).
  { unfold unresolved in U. unfold value_of. rewrite Eo in U |- *. cbn [eval]. destruct (lookup (with_own lab (d_addr sd) (d_env sd)) n); [discriminate U|reflexivity]. }
  rewrite Vn in S2. rewrite U in S6.
  destruct (nth_error_split _ _ S3) as (l1 & l2 & El & Ll).
  assert (Bn : pl_bytes pl = None) by (unfold is_open in S6; destruct (pl_bytes pl); [discriminate|reflexivity]).
  assert (En : encode_operand AsBuilt (d_env st) (pl_item pl) = None).
  { rewrite S5, Eo. destruct (encode_operand AsBuilt (d_env st) _) as [bs|] eqn:E; [|reflexivity]. exfalso.
    assert (N : encode_operand AsBuilt (d_env st) (mkItem (d_addr sd) m md op size (Some (Lab n))) <> None) by (rewrite E; discriminate).
    apply (open_encode AsBuilt (d_env st) (d_addr sd) m md op size n o S2 Eo) in N. destruct N as (v & Lv & Rg). rewrite Ef in Lv.
    rewrite Lv in Hmsg. destruct Hmsg as (Br & Far & _). apply Far, Rg, Br. }
  assert (F1 : Forall (fun q => pl_bytes q = None -> encode_operand AsBuilt (d_env st) (pl_item q) <> None) l1).
  { apply Forall_forall. intros q Hq Bq. destruct (In_nth_error _ _ Hq) as (i & Hi).
    assert (Li : (i < List.length l1)%nat) by (apply nth_error_Some; congruence).
    assert (Ni : nth_error (d_done st) i = Some q) by (rewrite El, nth_error_app1 by lia; exact Hi).
    destruct (count_find (body p) i) as (j & s & Nj & Is & Cj).
    { assert (List.length (d_done st) = List.length (filter is_instr (body p))) as <-.
      { destruct (accepts_done _ _ _ _ _ HA) as (more & E & L). cbn [d_done app] in E. rewrite E. unfold zlen, count in L. lia. }
      apply nth_error_Some. congruence. }
    destruct s as [| | | | |lab' m' o']; try discriminate.
    assert (instr_number p j = i) as Ij by (unfold instr_number; rewrite Cj; lia).
    destruct (Pl _ _ _ _ Nj) as (sd' & md' & op' & size' & q' & T1 & T2 & T3 & T4 & T5 & T6).
    rewrite Ij, Ni in T3. injection T3 as <-.
    destruct (Fwd _ _ _ _ _ Nj T1) as [Ad' Fj].
    unfold is_open in T6. rewrite Bq in T6. symmetry in T6. pose proof (proj1 Fj T6) as FWj.
    assert (Hjk : (j < k)%nat) by (apply (pos_lt p j k _ Nj eq_refl); lia).
    unfold unresolved in T6. destruct (operand_expr o') as [[w|n']|] eqn:Eo'; try discriminate.
    destruct (HC j Hjk FWj lab' m' o' n' (d_addr sd') Nj Eo' Ad') as (v & Lv & Rg).
    assert (Vn' : value_of (with_own lab' (d_addr sd') (d_env sd')) o' = None).
    { unfold value_of. rewrite Eo'. cbn [eval]. destruct (lookup _ n'); [discriminate|reflexivity]. }
    rewrite Vn' in T2. rewrite T5, Ef. apply (open_encode AsBuilt fin (d_addr sd') m' md' op' size' n' o' T2 Eo'). eauto. }
  pose proof (complete_first AsBuilt (d_env st) l1 pl l2 F1 Bn En) as Cf. rewrite <- El in Cf. rewrite S4, S5 in Cf. cbn [it_expr] in Cf.
  rewrite Eo in Cf. cbn [eval] in Cf. rewrite Ef in Cf.
  assert (Dg : diagnose AsBuilt p = DError (1 + Z.of_nat k) msg AtOperand).
  { unfold diagnose. rewrite (accepts_diag _ _ _ _ _ HA). unfold d_close. rewrite Ef, Cf.
    destruct (lookup fin n); [destruct Hmsg as (_ & _ & ->)|rewrite Hmsg]; reflexivity. }
  pose proof (gaia_diag file lines src p HS HM HB) as G. unfold Spec_Diag.diagnose in Dg. unfold Spec_Diag.diagnose in G. rewrite Dg in G.
  destruct G as (out & line & toks & G1 & G2 & G3 & G4 & G5).
  replace (Z.to_nat (1 + Z.of_nat k - 1)) with k in G3 by lia.
  assert (Hl : exists toks', Lexes literal16 true 0 line toks' /\ Line (map fst toks') (SInstr lab m o)).
  { assert (Np : nth_error p k = Some (SInstr lab m o)).
    { clear - K. revert k K. induction p as [|s p IH]; intros k K; [destruct k; discriminate|]. destruct s, k as [|k]; cbn [body nth_error] in *; try discriminate; auto. }
    clear - HM G3 Np. revert k G3 Np. induction HM as [|l s lines p Hls HM IH]; intros [|k] G3 Np; try discriminate.
    - cbn in G3, Np. injection G3 as ->. injection Np as ->. exact Hls.
    - eapply IH; eauto. }
  destruct Hl as (toks' & X1 & X2).
  assert (toks' = toks) as -> by (eapply Lexes_fun; eauto using literal16_fun).
  destruct (operand_label _ _ _ _ n X2 Eo) as (q & Eq & Hq). rewrite Eq in G5.
  exists out, line, toks, q. auto 8.
Qed.

(** C19 and C22, at the end *)
Theorem C19_not_found : forall file lines src p st fin k lab m o n, source_of lines src -> small src -> Forall2 line_means lines p ->
  state_after AsBuilt (body p) = Some st -> labels AsBuilt p = Some fin ->
  (forall j, (j < k)%nat -> forward AsBuilt p j -> completes p fin j) ->
  nth_error (body p) k = Some (SInstr lab m o) -> operand_expr o = Some (Lab n) ->
  (forall s, In s (body p) -> defines s <> Some n) ->
  exists out line toks q, gaia file src = Ret out /\ exit_code out = 1 /\ nth_error lines k = Some line /\
    Lexes literal16 true 0 line toks /\ In (TLabel n, q) toks /\
    Report file (1 + Z.of_nat k) "label definition was not found" (before_nul line) (Some q) (stdout out).
Proof.
  intros file lines src p st fin k lab m o n HS HB HM HA HF HC K Eo Nd.
  destruct (state_after_pass1 _ _ _ HA) as (P & _). 
  destruct (state_after_split AsBuilt _ _ _ _ K HA) as (sd & st' & E1 & E2 & E3).
  destruct (state_after_pass1 _ _ _ E1) as (P1 & _).
  assert (A1 : address AsBuilt p k = Some (d_addr sd)) by (unfold address; rewrite P1; reflexivity).
  assert (A2 : labels_at AsBuilt p k = Some (d_env sd)) by (unfold labels_at; rewrite P1; reflexivity).
  assert (Nb : forall s, In s (firstn k (body p)) -> defines s <> Some n).
  { intros s Hs. apply Nd. rewrite <- (firstn_skipn k (body p)). apply in_or_app; auto. }
  assert (FW : forward AsBuilt p k).
  { exists lab, m, o, (d_addr sd), (d_env sd). do 3 (split; [assumption|]). unfold unresolved. rewrite Eo.
    assert (L0 : lookup (d_env sd) n = None) by (eapply not_defined; [exact E1|intros (s & Hs & D); exact (Nb s Hs D)]).
    destruct lab as [l|]; cbn [with_own lookup]; [|rewrite L0; reflexivity].
    destruct (text_eqb l n) eqn:El; [|rewrite L0; reflexivity]. apply text_eqb_eq in El. subst l. exfalso.
    apply (Nd (SInstr (Some n) m o)); [eapply nth_error_In; eauto|reflexivity]. }
  eapply report_at_end; eauto.
  destruct (lookup fin n) as [v|] eqn:Lv; [|reflexivity]. exfalso.
  destruct (label_place _ _ _ _ _ HF Lv) as (j & s & c & J1 & J2 & _). apply (Nd s); [eapply nth_error_In; eauto|exact J2].
Qed.

Theorem C22_forward_too_far : forall file lines src p st fin k lab m n v a, source_of lines src -> small src -> Forall2 line_means lines p ->
  state_after AsBuilt (body p) = Some st -> labels AsBuilt p = Some fin ->
  (forall j, (j < k)%nat -> forward AsBuilt p j -> completes p fin j) ->
  nth_error (body p) k = Some (SInstr lab m (ODir (Lab n))) -> forward AsBuilt p k -> is_branch_name m = true ->
  address AsBuilt p k = Some a -> lookup fin n = Some v -> ~ (-128 <= v - (a + 2) <= 127) ->
  exists out line toks q, gaia file src = Ret out /\ exit_code out = 1 /\ nth_error lines k = Some line /\
    Lexes literal16 true 0 line toks /\ In (TLabel n, q) toks /\
    Report file (1 + Z.of_nat k) "branch offset too far away" (before_nul line) (Some q) (stdout out).
Proof.
  intros file lines src p st fin k lab m n v a HS HB HM HA HF HC K FW Br Ad Lv Far.
  eapply (report_at_end file lines src p st fin k lab m (ODir (Lab n)) n a); eauto. rewrite Lv. auto.
Qed.

(** success: every branch to a label holds its distance *)
Theorem C22_success : forall file src p o k lab m n, program_means src p -> small src ->
  gaia file src = Ret o -> exit_code o = 0 -> nth_error (body p) k = Some (SInstr lab m (ODir (Lab n))) -> is_branch_name m = true ->
  exists code fin a v opc b, reference AsBuilt p = Some code /\ labels AsBuilt p = Some fin /\ lookup fin n = Some v /\
    address AsBuilt p k = Some a /\ nth_error code (instr_number p k) = Some (a, [opc; b]) /\
    0 <= b < 256 /\ a + 2 + signed_byte b = v.
Proof.
  intros file src p o k lab m n HM HB HG HE K Br. destruct (assembled _ _ _ _ HM HB HG HE) as (st & code & A & R & P & _).
  destruct (instr_piece _ _ _ _ _ _ _ R K) as (a & e & fin & md & opc & size & bs & E1 & E2 & E3 & Ex & D & H & En & N).
  unfold denoted_mode in D. rewrite Br in D. injection D as <-. unfold encode_operand in En. cbn [it_expr operand_expr eval it_mode it_addr] in En.
  destruct (lookup fin n) as [v|] eqn:Lv; [|discriminate]. cbn zeta in En.
  destruct (Z.leb_spec (-128) (v - (a + 2))), (Z.leb_spec (v - (a + 2)) 127); try discriminate. cbn [andb] in En. injection En as <-.
  destruct (signed_mod (v - (a + 2))) as [K1 K2]; [lia|].
  exists code, fin, a, v, opc, ((v - (a + 2)) mod 256). do 5 (split; [assumption|]). split; [exact K1|lia].
Qed.

(** ** The hypotheses are met *)
Lemma front_check : forall file pre line post p sd, forallb fitsb (pre ++ line :: post) = true ->
  (Z.of_nat (List.length (join (pre ++ line :: post))) <? 20000000) = true ->
  statements pre = Some p -> state_after AsBuilt p = Some sd ->
  exists st, in_front file pre line post (join (pre ++ line :: post)) st /\ has_labels st (d_env sd) /\ st_pc st = d_addr sd /\
    small (join (pre ++ [line])).
Proof.
  intros file pre line post p sd H1 H2 H3 H4. pose proof (fitsb_ok _ H1) as F.
  assert (S : small (join (pre ++ line :: post))) by (unfold small; apply Z.ltb_lt; exact H2).
  assert (S1 : small (join (pre ++ [line]))).
  { change (line :: post) with ([line] ++ post) in S. rewrite app_assoc, join_app in S. eapply small_front. exact S. }
  pose proof (statements_ok _ _ H3) as M. pose proof F as F1. apply Forall_app in F1. destruct F1 as [F1 _].
  assert (S0 : small (join pre)) by (rewrite join_app in S; eapply small_front; exact S).
  destruct (state_after_pass1 _ _ _ H4) as (_ & _ & N).
  destruct (state_read file pre p sd F1 S0 M H4) as (st & R).
  destruct (read_state _ _ _ _ R M N) as (sd' & E' & Pc & _ & _ & _ & _ & _ & L). rewrite H4 in E'. injection E' as <-.
  exists st. split; [|auto]. split; [split; [exact F|left; reflexivity]|]. split; [exact S|]. split; [exact R|]. exists p. auto.
Qed.

(** the label of the instruction [line] and the labels in front of it, computed *)
Definition instr_line (pre : list text) (line : text) (lab : option text) (m : string) (o : operand) (e : env) (a : Z) : Prop :=
  exists post file st toks, in_front file pre line post (join (pre ++ line :: post)) st /\ has_labels st e /\ st_pc st = a /\
    small (join (pre ++ [line])) /\ Lexes literal16 true 0 line toks /\ Line (map fst toks) (SInstr lab m o) /\ fresh e lab.

Definition freshb (e : env) (lab : option text) : bool :=
  match lab with Some l => match lookup e l with None => true | Some _ => false end | None => true end.
Lemma freshb_ok : forall e lab, freshb e lab = true -> fresh e lab.
Proof. intros e lab H l ->. unfold freshb in H. destruct (lookup e l); [discriminate|reflexivity]. Qed.

Lemma instr_check : forall pre line p sd toks lab m o, forallb fitsb (pre ++ [line]) = true ->
  (Z.of_nat (List.length (join (pre ++ [line]))) <? 20000000) = true ->
  statements pre = Some p -> state_after AsBuilt p = Some sd -> tokens line = Some toks ->
  lineb (map fst toks) = Some (SInstr lab m o) -> freshb (d_env sd) lab = true ->
  instr_line pre line lab m o (d_env sd) (d_addr sd).
Proof.
  intros pre line p sd toks lab m o H1 H2 H3 H4 H5 H6 H7.
  destruct (front_check (T "a.asm") pre line [] p sd H1 H2 H3 H4) as (st & A & B & C & D).
  exists [], (T "a.asm"), st, toks. do 4 (split; [assumption|]). split; [apply tokens_ok; exact H5|].
  split; [apply lineb_ok; exact H6|apply freshb_ok; exact H7].
Qed.

Ltac instr_line :=
  eapply instr_check; [vm_compute; reflexivity|vm_compute; reflexivity|vm_compute; reflexivity|vm_compute; reflexivity
                      |vm_compute; reflexivity|vm_compute; reflexivity|vm_compute; reflexivity].

(** C12: STA #5 has no documented opcode, START: LDX #COUNT has one *)
Example C12_example : exists pre line lab m o e a, instr_line pre line lab m o e a /\ unresolved (with_own lab a e) o = false /\
  forall md opc, denoted_mode m o (value_of (with_own lab a e) o) = Some md -> ~ documented m md opc.
Proof.
  exists (firstn 2 demo), (T " STA #COUNT"). do 5 eexists. split; [instr_line|]. split; [vm_compute; reflexivity|].
  intros md opc E. vm_compute in E. injection E as <-. intros (s & H).
  assert (listed "STA" IMM <> None) by (apply in_listed in H; congruence). vm_compute in H0. congruence.
Qed.

Example C12_accepted_example : exists pre line lab m o e a md opc, instr_line pre line lab m o e a /\
  unresolved (with_own lab a e) o = false /\ denoted_mode m o (value_of (with_own lab a e) o) = Some md /\ documented m md opc /\
  in_range_of (with_own lab a e) a m o.
Proof.
  exists (firstn 5 demo), (T "HERE BNE LOOP"). do 5 eexists. exists REL, 0xD0. split; [instr_line|]. split; [vm_compute; reflexivity|].
  split; [vm_compute; reflexivity|]. split; [exists 2; apply listed_in; vm_compute; reflexivity|].
  intros _ n v E. injection E as <-. intro E. vm_compute in E. injection E as <-. split; vm_compute; discriminate.
Qed.

(** C13: JMP (SUB), with SUB defined later, is accepted, BNE SUB,X is not *)
Example C13_accepted_example : exists pre line lab m o e a md, instr_line pre line lab m o e a /\
  unresolved (with_own lab a e) o = true /\ forward_form m o = Some md.
Proof.
  exists (firstn 5 demo), (T "HERE JMP (SUB)"). do 6 eexists. split; [instr_line|]. split; vm_compute; reflexivity.
Qed.
Example C13_rejected_example : exists pre line lab m o e a, instr_line pre line lab m o e a /\
  unresolved (with_own lab a e) o = true /\ (is_branch_name m = true \/ is_jump_name m = true) /\ forward_form m o = None /\
  (m = "JMP"%string -> forall x, o <> ODirX x /\ o <> ODirY x).
Proof.
  exists (firstn 5 demo), (T "HERE JSR SUB,X"). do 5 eexists. split; [instr_line|]. split; [vm_compute; reflexivity|].
  split; [right; reflexivity|]. split; [reflexivity|discriminate].
Qed.

(** C19: LDA SUB *)
Example C19_example : exists pre line lab m o e a n, instr_line pre line lab m o e a /\
  operand_expr o = Some (Lab n) /\ lookup (with_own lab a e) n = None /\ is_branch_name m = false /\ is_jump_name m = false.
Proof.
  exists (firstn 5 demo), (T "HERE LDA SUB"). do 6 eexists. split; [instr_line|]. repeat split; vm_compute; reflexivity.
Qed.

(** C22: a branch to a label more than 127 bytes away, and one in range *)
Example C22_example : exists pre line lab m n e a v, instr_line pre line lab m (ODir (Lab n)) e a /\ is_branch_name m = true /\
  lookup (with_own lab a e) n = Some v /\ ~ (-128 <= v - (a + 2) <= 127).
Proof.
  exists (demo ++ [T ".ORG 1000"]), (T "HERE BNE LOOP"). do 6 eexists. split; [instr_line|].
  split; [reflexivity|]. split; [vm_compute; reflexivity|]. intros [K _]. apply K. vm_compute. reflexivity.
Qed.
Example C22_in_range_example : exists pre line lab m n e a v, instr_line pre line lab m (ODir (Lab n)) e a /\ is_branch_name m = true /\
  lookup (with_own lab a e) n = Some v /\ -128 <= v - (a + 2) <= 127.
Proof.
  exists demo, (T "HERE BNE LOOP"). do 6 eexists. split; [instr_line|].
  split; [reflexivity|]. split; [vm_compute; reflexivity|]. split; vm_compute; discriminate.
Qed.

(** the end of the file: two references wait, the first one is completed, the second one is not *)
Definition waits (lines : list text) (p : list stmt) (k : nat) (st : dstate) (fin : env) : Prop :=
  source_of lines (join lines) /\ small (join lines) /\ Forall2 line_means lines p /\
  state_after AsBuilt (body p) = Some st /\ labels AsBuilt p = Some fin /\
  (forall j, (j < k)%nat -> forward AsBuilt p j -> completes p fin j).

Definition completesb (p : list stmt) (fin : env) (j : nat) : bool :=
  match nth_error (body p) j, address AsBuilt p j with
  | Some (SInstr _ m o), Some a =>
      match operand_expr o with
      | Some (Lab n) => match lookup fin n with
                        | Some v => negb (is_branch_name m) || ((-128 <=? v - (a + 2)) && (v - (a + 2) <=? 127))
                        | None => false end
      | _ => true
      end
  | _, _ => true
  end.
Lemma completesb_ok : forall p fin j, completesb p fin j = true -> completes p fin j.
Proof.
  intros p fin j H lab m o n a H1 H2 H3. unfold completesb in H. rewrite H1, H3, H2 in H.
  destruct (lookup fin n) as [v|]; [|discriminate]. exists v. split; [reflexivity|]. intro B. rewrite B in H. cbn [negb orb] in H.
  apply andb_true_iff in H. destruct H as [X Y]. apply Z.leb_le in X, Y. lia.
Qed.

Lemma waits_check : forall lines p k st fin, forallb fitsb lines = true -> (Z.of_nat (List.length (join lines)) <? 20000000) = true ->
  statements lines = Some p -> state_after AsBuilt (body p) = Some st -> labels AsBuilt p = Some fin ->
  forallb (completesb p fin) (seq 0 k) = true -> waits lines p k st fin.
Proof.
  intros lines p k st fin H1 H2 H3 H4 H5 H6. destruct (program_check _ _ H1 H3) as (A & B & _).
  split; [exact A|]. split; [unfold small; apply Z.ltb_lt; exact H2|]. do 3 (split; [assumption|]).
  intros j L _. apply completesb_ok. rewrite forallb_forall in H6. apply H6, in_seq. lia.
Qed.

Ltac waits := eapply waits_check; [vm_compute; reflexivity|vm_compute; reflexivity|vm_compute; reflexivity|vm_compute; reflexivity
                                  |vm_compute; reflexivity|vm_compute; reflexivity].

Example C19_end_example : exists lines p k st fin lab m o n, waits lines p k st fin /\ (exists j, (j < k)%nat /\ forward AsBuilt p j) /\
  nth_error (body p) k = Some (SInstr lab m o) /\ operand_expr o = Some (Lab n) /\ forall s, In s (body p) -> defines s <> Some n.
Proof.
  exists [T " JMP ON"; T "ON BNE NONE"; T " RTS"]. eexists. exists 1%nat. do 6 eexists. split; [waits|].
  split; [exists 0%nat; split; [lia|apply forwardb_ok; vm_compute; reflexivity]|].
  split; [vm_compute; reflexivity|]. split; [vm_compute; reflexivity|].
  intros s H. vm_compute in H. destruct H as [<- | [<- | [<- | []]]]; discriminate.
Qed.
Example C22_end_example : exists lines p k st fin lab m n v a, waits lines p k st fin /\ (exists j, (j < k)%nat /\ forward AsBuilt p j) /\
  nth_error (body p) k = Some (SInstr lab m (ODir (Lab n))) /\ forward AsBuilt p k /\ is_branch_name m = true /\
  address AsBuilt p k = Some a /\ lookup fin n = Some v /\ ~ (-128 <= v - (a + 2) <= 127).
Proof.
  exists [T " JMP ON"; T "ON BNE FAR"; T " RTS"; T ".ORG 300"; T "FAR"]. eexists. exists 1%nat. do 7 eexists. split; [waits|].
  split; [exists 0%nat; split; [lia|apply forwardb_ok; vm_compute; reflexivity]|].
  split; [vm_compute; reflexivity|]. split; [apply forwardb_ok; vm_compute; reflexivity|]. split; [vm_compute; reflexivity|].
  split; [vm_compute; reflexivity|]. split; [vm_compute; reflexivity|]. intros [_ K]. apply K. vm_compute. reflexivity.
Qed.
