(** Prop_Decode.v -- C68: the machine code of a program determines its instructions. *)
From Verif Require Import Base Proof_Base Model_Main Spec_Isa Spec_Text Spec_Asm Spec_Diag Spec_Prog Spec_Listing Spec_Decode
  Proof_Opcode Proof_Modes Proof_Regular Proof_Core Proof_Ref Proof_Run Proof_Check Proof_Prog Proof_Listing Prop_Program Prop_Code Prop_Listing.

Lemma same_length {A B} (R : A -> B -> Prop) : forall l l', Forall2 R l l' -> List.length l = List.length l'.
Proof. induction 1; cbn; congruence. Qed.

(** ** items one after the other *)
Inductive chain : Z -> list item -> Z -> Prop :=
| chain_nil a : chain a [] a
| chain_cons a it its b : it_addr it = a -> chain (a + it_size it) its b -> chain a (it :: its) b.
Lemma chain_snoc : forall a its b it, chain a its b -> it_addr it = b -> chain a (its ++ [it]) (b + it_size it).
Proof.
  intros a its b it H. induction H as [a|a x its b Hx H IH]; intro E; cbn [app].
  - constructor; [exact E|constructor].
  - constructor; [exact Hx|apply IH; exact E].
Qed.

Definition narrow (md : mode) : Prop := md = ACC \/ md = IMP.
Definition good (it : item) : Prop :=
  listed (it_name it) (it_mode it) = Some (it_opcode it, it_size it) /\ (it_expr it = None <-> narrow (it_mode it)) /\
  match it_expr it with Some (Num v) => 0 <= v | _ => True end.

Lemma denoted_none : forall m o v md, denoted_mode m o v = Some md -> operand_expr o = None -> narrow md.
Proof.
  intros m o v md D E. unfold denoted_mode in D. destruct o; try discriminate; destruct (is_branch_name m), (is_jump_name m); try discriminate.
  - destruct (existsb _ _); injection D as <-; unfold narrow; auto.
  - injection D as <-. unfold narrow. auto.
Qed.

Lemma instr_good : forall st m o st', match operand_expr o with Some x => expr16 x | None => True end ->
  ~ indexed_jump (SInstr None m o) -> pass1_instr AsBuilt st m o = Some st' ->
  exists it, p1_items st' = p1_items st ++ [it] /\ it_addr it = p1_addr st /\ p1_addr st' = p1_addr st + it_size it /\ good it.
Proof.
  intros st m o st' X J H. unfold pass1_instr in H. destruct (denoted_mode m o _) as [md|] eqn:D; [|discriminate].
  destruct (has_mode AsBuilt m md _) as [[op size]|] eqn:Hm; [|discriminate]. injection H as <-.
  eexists. split; [reflexivity|]. split; [reflexivity|]. split; [reflexivity|].
  unfold good. cbn [it_name it_mode it_opcode it_size it_expr]. split; [|split].
  - destruct (has_mode_cases _ _ _ _ _ _ Hm) as [L|(_ & -> & _ & M & _)]; [exact L|].
    exfalso. apply J. destruct (denoted_indexed _ _ _ D M) as (x & [-> | ->]); reflexivity.
  - split; [apply (denoted_none _ _ _ _ D)|apply (denoted_narrow _ _ _ _ D)].
  - destruct (operand_expr o) as [[v|n]|]; auto. cbn in X. lia.
Qed.

Lemma pass1_chain : forall p st st' a, Forall stmt16 p -> ~ In SEnd p -> (forall v, ~ In (SOrg v) p) -> (forall s, In s p -> ~ indexed_jump s) ->
  pass1 AsBuilt st p = Some st' -> chain a (p1_items st) (p1_addr st) -> Forall good (p1_items st) ->
  chain a (p1_items st') (p1_addr st') /\ Forall good (p1_items st').
Proof.
  assert (Df : forall st n v st' a, define st n v = Some st' -> chain a (p1_items st) (p1_addr st) -> Forall good (p1_items st) ->
    chain a (p1_items st') (p1_addr st') /\ Forall good (p1_items st')).
  { intros st n v st' a H C G. unfold define in H. destruct (lookup (p1_env st) n); [discriminate|]. injection H as <-. auto. }
  assert (In' : forall st m o st' a, match operand_expr o with Some x => expr16 x | None => True end -> ~ indexed_jump (SInstr None m o) ->
    pass1_instr AsBuilt st m o = Some st' -> chain a (p1_items st) (p1_addr st) -> Forall good (p1_items st) ->
    chain a (p1_items st') (p1_addr st') /\ Forall good (p1_items st')).
  { intros st m o st' a X J H C G. destruct (instr_good _ _ _ _ X J H) as (it & E1 & E2 & E3 & Gi). rewrite E1, E3. split.
    - apply chain_snoc; assumption.
    - apply Forall_app. split; [exact G|]. constructor; [exact Gi|constructor]. }
  induction p as [|s p IH]; intros st st' a S NE NO J H C G; [injection H as <-; auto|]. inversion S as [|? ? S1 S2]; subst.
  assert (Ns : s <> SEnd) by (intros ->; apply NE; left; reflexivity). rewrite pass1_cons in H by exact Ns.
  destruct (pass1_stmt AsBuilt st s) as [st1|] eqn:E; [|discriminate].
  assert (K : chain a (p1_items st1) (p1_addr st1) /\ Forall good (p1_items st1)).
  { destruct s as [|n|n v|v| |lab m o]; cbn [pass1_stmt] in E.
    - injection E as <-. auto.
    - eapply Df; eauto.
    - eapply Df; eauto.
    - exfalso. apply (NO v). left. reflexivity.
    - congruence.
    - destruct S1 as [_ X]. assert (Jm : ~ indexed_jump (SInstr None m o)) by exact (J _ (or_introl eq_refl)).
      destruct lab as [n|].
      + destruct (define st n (p1_addr st)) as [st2|] eqn:D; [|discriminate].
        destruct (Df _ _ _ _ _ D C G) as [C2 G2]. eapply In'; eauto.
      + eapply In'; eauto. }
  destruct K as [C1 G1]. eapply IH; [exact S2| | | |exact H|exact C1|exact G1].
  - intro K. apply NE. right. exact K.
  - intros v K. apply (NO v). right. exact K.
  - intros s' K. apply J. right. exact K.
Qed.

(** ** pieces *)
Definition isdecoded (bs : list Z) (x : machine) : Prop :=
  let '(m, md, r) := x in exists op, bs = op :: r /\ decode op = Some (m, md, 1 + Z.of_nat (List.length r)) /\ Forall (fun b => 0 <= b < 256) r.

Lemma byte_mod : forall x, 0 <= x mod 256 < 256.
Proof. intro x. apply Z.mod_pos_bound. lia. Qed.

Lemma good_encoded : forall e it bs, good it -> encode_operand AsBuilt e it = Some bs ->
  Z.of_nat (List.length (it_opcode it :: bs)) = it_size it /\ isdecoded (it_opcode it :: bs) (it_name it, it_mode it, bs).
Proof.
  intros e it bs (L & N & V) E. pose proof (listed_size _ _ _ _ L) as Sz.
  assert (K : Z.of_nat (List.length bs) = operand_bytes (it_mode it) /\ Forall (fun b => 0 <= b < 256) bs).
  { unfold encode_operand in E. destruct (it_expr it) as [x|] eqn:Ex.
    - assert (Nn : ~ narrow (it_mode it)) by (intro K; apply N in K; discriminate).
      destruct (eval e x) as [v|] eqn:Ev; [|discriminate]. unfold narrow in Nn.
      assert (B1 : 0 <= lo v < 256) by apply byte_mod. assert (B2 : 0 <= hi v < 256) by apply byte_mod.
      destruct (it_mode it); try (exfalso; tauto); try (injection E as <-; split; [reflexivity|repeat constructor; lia]).
      destruct x as [w|n].
      + cbn in Ev. injection Ev as ->. destruct (Z.leb_spec v 255); injection E as <-; (split; [reflexivity|repeat constructor; lia]).
      + destruct (_ && _); [|discriminate]. injection E as <-. split; [reflexivity|]. constructor; [apply byte_mod|constructor].
    - injection E as <-. destruct (proj1 N eq_refl) as [-> | ->]; split; auto. }
  destruct K as [K B]. cbn [List.length]. split; [lia|]. exists (it_opcode it). split; [reflexivity|]. split; [|exact B].
  rewrite K, <- Sz. apply decode_listed. exact L.
Qed.

Lemma pieces : forall e a its b, chain a its b -> Forall good its -> forall code, pass2 AsBuilt e its = Some code ->
  exists bytes l, laid a code bytes /\ b = a + Z.of_nat (List.length bytes) /\ Forall2 isdecoded (map snd code) l /\
    Forall2 (fun it x => let '(m, md, _) := x in it_name it = m /\ it_mode it = md) its l.
Proof.
  intros e a its b H. induction H as [a|a it its b Ha H IH]; intros G code E; cbn [pass2] in E.
  - injection E as <-. exists [], []. split; [constructor|]. split; [cbn; lia|]. split; constructor.
  - inversion G as [|? ? G1 G2]; subst. destruct (encode_operand AsBuilt e it) as [bs|] eqn:En; [|discriminate].
    destruct (pass2 AsBuilt e its) as [c|] eqn:P; [|discriminate]. injection E as <-.
    destruct (IH G2 _ eq_refl) as (bytes & l & L & Eb & F & Fi). destruct (good_encoded _ _ _ G1 En) as [Sz D].
    exists ((it_opcode it :: bs) ++ bytes), ((it_name it, it_mode it, bs) :: l).
    split; [constructor; rewrite Sz; exact L|]. split; [rewrite app_length, Nat2Z.inj_add, Sz; lia|].
    split; [constructor; assumption|]. constructor; auto.
Qed.

Lemma laid_decoded : forall a code bytes, laid a code bytes -> forall l, Forall2 isdecoded (map snd code) l -> decoded bytes = Some l.
Proof.
  intros a code bytes H. induction H as [a|a bs ps rest H IH]; intros l F; cbn [map snd] in F; inversion F as [|? x ? l' D F']; subst; [reflexivity|].
  destruct x as [[m md] r]. destruct D as (op & -> & D & _). cbn [app decoded]. rewrite D.
  pose proof (decode_row _ _ _ _ D) as R. pose proof (r_size _ _ _ _ R) as Z1.
  assert (C : r = [] \/ (exists b, r = [b]) \/ exists b h, r = [b; h]).
  { destruct r as [|b [|h [|? ?]]]; eauto. exfalso. cbn [List.length] in Z1. destruct md; cbn [operand_bytes] in Z1; lia. }
  destruct C as [-> |[[b ->]|(b & h & ->)]]; cbn [List.length app]; rewrite (IH _ F'); reflexivity.
Qed.

Lemma laid_skip : forall a ps bytes file, laid a ps bytes -> 0 <= a -> is_image ps file -> skipn (Z.to_nat a) file = bytes.
Proof.
  intros a ps bytes file H P [L B]. rewrite (laid_end _ _ _ H P) in *.
  destruct ps as [|p ps].
  { inversion H. subst. destruct file; [destruct (Z.to_nat a); reflexivity|]. cbn in L. lia. }
  apply nth_ext with (d := 0) (d' := 0); [rewrite skipn_length; lia|]. intros n Hn. rewrite skipn_length in Hn.
  specialize (B (a + Z.of_nat n) ltac:(lia)). rewrite (laid_byte _ _ _ H), (proj2 (Z.leb_le a (a + Z.of_nat n))) in B by lia.
  replace (Z.to_nat (a + Z.of_nat n - a)) with n in B by lia.
  replace (Z.to_nat (a + Z.of_nat n)) with (Z.to_nat a + n)%nat in B by lia.
  rewrite <- (firstn_skipn (Z.to_nat a) file) in B at 1. rewrite nth_error_app2 in B by (rewrite firstn_length; lia).
  rewrite firstn_length in B. replace (Z.to_nat a + n - Nat.min (Z.to_nat a) (List.length file))%nat with n in B by lia.
  rewrite (nth_error_nth _ _ _ B).
  destruct (nth_error bytes n) as [b|] eqn:K; [symmetry; apply nth_error_nth; exact K|]. apply nth_error_None in K. lia.
Qed.

Lemma block_monotone : forall p st, (forall v, ~ In (SOrg v) (body p)) -> monotone_from AsBuilt st p.
Proof.
  induction p as [|s p IH]; intros st H; [exact I|]. destruct s as [|n|n v|v| |lab m o]; try exact I.
  4:{ exfalso. apply (H v). left. reflexivity. }
  all: cbn [monotone_from]; split; [exact I|]; cbn [body] in H;
    match goal with |- match ?x with _ => _ end => destruct x; [|exact I] end; apply IH; intros w K; apply (H w); right; exact K.
Qed.

Lemma in_body : forall p s, In s (body p) -> In s p.
Proof.
  induction p as [|x p IH]; intros s H; [destruct H|]. destruct x; cbn [body] in H; try (destruct H as [<- |H]; [left; reflexivity|right; apply IH; exact H]).
  destruct H.
Qed.

(** the code of a program that is one block *)
Lemma block : forall p a code st, Forall stmt16 p -> one_block p a -> (forall s, In s (body p) -> ~ indexed_jump s) ->
  pass1_program AsBuilt p = Some st -> pass2 AsBuilt (p1_env st) (p1_items st) = Some code ->
  0 <= a /\ monotone AsBuilt p /\ exists bytes l, laid a code bytes /\ p1_addr st = a + Z.of_nat (List.length bytes) /\
    Forall2 isdecoded (map snd code) l /\ Forall2 (fun it x => let '(m, md, _) := x in it_name it = m /\ it_mode it = md) (p1_items st) l.
Proof.
  intros p a code st S B J E P. unfold pass1_program in E. pose proof E as E0. rewrite pass1_body in E.
  assert (Sb : Forall stmt16 (body p)) by (rewrite Forall_forall in *; intros s H; apply S, in_body; exact H).
  pose proof (body_no_end p) as NE.
  destruct B as [[-> NO]|(q & Eb & NO)].
  - destruct (pass1_chain _ _ _ 0 Sb NE NO J E) as [C G]; [constructor|constructor|].
    split; [lia|]. split; [apply block_monotone; exact NO|]. eapply pieces; eauto.
  - rewrite Eb in *. inversion Sb as [|? ? S1 S2]; subst. cbn in S1. rewrite pass1_cons in E by discriminate. cbn [pass1_stmt p1_env p1_items] in E.
    destruct (pass1_chain q (mkP1 a [] []) st a S2) as [C G]; auto.
    + intro K. apply NE. right. exact K.
    + intros s K. apply J. right. exact K.
    + constructor.
    + constructor.
    + split; [lia|]. split; [|eapply pieces; eauto].
      destruct p as [|s p]; [discriminate|]. unfold monotone.
      assert (s = SOrg a /\ body p = q) as [-> <-] by (destruct s; cbn [body] in Eb; try discriminate; split; congruence).
      cbn [monotone_from p1_addr pass1_stmt]. split; [lia|]. apply block_monotone. exact NO.
Qed.

(** ** C68.  The binary, decoded from its beginning, is the list of the instructions of the source *)
Theorem C68_decoded : forall file src p a o, program_means src p -> small src -> one_block p a ->
  (forall s, In s (body p) -> ~ indexed_jump s) -> gaia file src = Ret o -> exit_code o = 0 ->
  exists l fin, decoded (skipn (Z.to_nat a) (binary o)) = Some l /\ labels AsBuilt p = Some fin /\
    Z.of_nat (List.length l) = count is_instr (body p) /\
    forall k lab m op, nth_error (body p) k = Some (SInstr lab m op) ->
      exists ad e md bs, address AsBuilt p k = Some ad /\ labels_at AsBuilt p k = Some e /\
        nth_error l (instr_number p k) = Some (m, md, bs) /\
        denoted_mode m op (value_of (with_own lab ad e) op) = Some md /\
        match operand_expr op with
        | None => bs = []
        | Some x => exists v, eval fin x = Some v /\
            (v <= 0xFFFF -> (is_branch_name m = true -> match x with Num _ => v <= 0xFF | _ => True end) -> operand_holds ad md x v bs)
        end.
Proof.
  intros file src p a o PM SM OB J HG HE.
  destruct (assembled _ _ _ _ PM SM HG HE) as (st & code & _ & R & P & _ & _ & _ & Im).
  unfold reference in R. rewrite P in R.
  destruct (block p a code (p1_of st) (program_16 _ _ PM) OB J P R) as (A0 & Mo & bytes & l & L & _ & F & Fi).
  specialize (Im Mo). exists l, (p1_env (p1_of st)). rewrite (laid_skip _ _ _ _ L A0 Im).
  split; [eapply laid_decoded; eauto|]. split; [unfold labels; rewrite P; reflexivity|].
  unfold pass1_program in P. rewrite pass1_body in P. destruct (items_count _ _ _ _ P (body_no_end p)) as (its & Ei & Ci). cbn [p1_items app] in Ei.
  split.
  { rewrite <- Ci. unfold zlen. rewrite <- Ei. rewrite (same_length _ _ _ Fi). reflexivity. }
  rewrite <- pass1_body in P. fold (pass1_program AsBuilt p) in P.
  intros k lab m op K.
  assert (JJ : m = "JMP"%string -> forall x, op <> ODirX x /\ op <> ODirY x).
  { intros -> x. pose proof (J _ (nth_error_In _ _ K)) as Jk. cbn in Jk. split; intros ->; apply Jk; reflexivity. }
  destruct (C43_disassembles_partial _ _ _ _ _ _ _ _ PM SM HG HE K JJ) as (code' & fin' & ad & e & md & opc & bs & R' & L' & Ad & La & N & D & Dm & O).
  unfold reference in R'. rewrite P in R'. rewrite R in R'. injection R' as <-. unfold labels in L'. rewrite P in L'. injection L' as <-.
  exists ad, e, md, bs. do 2 (split; [assumption|]). split; [|auto].
  assert (Nx : nth_error (map snd code) (instr_number p k) = Some (opc :: bs)) by (rewrite nth_error_map, N; reflexivity).
  clear - F Nx D. revert F Nx. generalize (instr_number p k) (map snd code) l. clear - D.
  induction n as [|n IH]; intros c l F Nx; destruct F as [|x y c l Dx F]; try discriminate; cbn [nth_error] in *.
  - injection Nx as ->. destruct y as [[m' md'] r']. destruct Dx as (op' & E & D' & _). injection E as <- <-.
    rewrite D in D'. injection D' as <- <-. reflexivity.
  - eapply IH; eauto.
Qed.

(** two programs with the same binary have the same instructions, up to the spelling of the operands: the same mnemonics
    and modes in the same order, with the same values *)
Theorem C68_same_binary : forall file file' src src' p p' a o o' fin fin',
  program_means src p -> small src -> one_block p a -> (forall s, In s (body p) -> ~ indexed_jump s) ->
  program_means src' p' -> small src' -> one_block p' a -> (forall s, In s (body p') -> ~ indexed_jump s) ->
  gaia file src = Ret o -> exit_code o = 0 -> gaia file' src' = Ret o' -> exit_code o' = 0 -> binary o = binary o' ->
  labels AsBuilt p = Some fin -> labels AsBuilt p' = Some fin' ->
  count is_instr (body p) = count is_instr (body p') /\
  forall k k' lab lab' m m' op op', nth_error (body p) k = Some (SInstr lab m op) -> nth_error (body p') k' = Some (SInstr lab' m' op') ->
    instr_number p k = instr_number p' k' ->
    m = m' /\ exists ad ad' e e' md, address AsBuilt p k = Some ad /\ address AsBuilt p' k' = Some ad' /\
      labels_at AsBuilt p k = Some e /\ labels_at AsBuilt p' k' = Some e' /\
      denoted_mode m op (value_of (with_own lab ad e) op) = Some md /\ denoted_mode m' op' (value_of (with_own lab' ad' e') op') = Some md /\
      forall x x' v v', operand_expr op = Some x -> operand_expr op' = Some x' -> eval fin x = Some v -> eval fin' x' = Some v' ->
        v <= 0xFFFF -> v' <= 0xFFFF -> is_branch_name m = false -> v = v'.
Proof.
  intros file file' src src' p p' a o o' fin fin' PM SM OB J PM' SM' OB' J' G E G' E' B Lf Lf'.
  destruct (C68_decoded _ _ _ _ _ PM SM OB J G E) as (l & f & D & Lg & C & K). rewrite Lf in Lg. injection Lg as <-.
  destruct (C68_decoded _ _ _ _ _ PM' SM' OB' J' G' E') as (l' & f' & D' & Lg' & C' & K'). rewrite Lf' in Lg'. injection Lg' as <-.
  rewrite B, D' in D. injection D as <-. split; [congruence|].
  intros k k' lab lab' m m' op op' N N' I.
  destruct (K _ _ _ _ N) as (ad & e & md & bs & A1 & A2 & A3 & A4 & A5).
  destruct (K' _ _ _ _ N') as (ad' & e' & md' & bs' & B1 & B2 & B3 & B4 & B5).
  rewrite I, B3 in A3. injection A3 as <- <- <-. split; [reflexivity|]. exists ad, ad', e, e', md'. do 6 (split; [assumption|]).
  intros x x' v v' X X' V V' Lv Lv' NB. rewrite X in A5. rewrite X' in B5.
  destruct A5 as (w & W & O). rewrite V in W. injection W as <-. destruct B5 as (w & W & O'). rewrite V' in W. injection W as <-.
  rewrite NB in *. specialize (O Lv ltac:(discriminate)). specialize (O' Lv' ltac:(discriminate)).
  assert (md' <> REL) as NR.
  { intros ->. destruct (Proof_Diag.denoted_rel _ _ _ A4) as (Br & _). congruence. }
  unfold operand_holds in O, O'. destruct md'; try congruence; try (destruct O, O'; congruence);
    destruct O as (l & h & El & _ & _ & <-), O' as (l0 & h0 & El' & _ & _ & <-); congruence.
Qed.

(** ** the code of a program can be disassembled, and assembling the result gives the code again *)
Theorem C68_again : forall file file' src p a o fin, program_means src p -> small src -> one_block p a ->
  (forall s, In s (body p) -> ~ indexed_jump s) -> gaia file src = Ret o -> exit_code o = 0 ->
  labels AsBuilt p = Some fin -> labels16 fin -> Z.of_nat (List.length (binary o)) <= 1000000 ->
  exists lines o', disassemble (skipn (Z.to_nat a) (binary o)) = Some lines /\
    Z.of_nat (List.length lines) = count is_instr (body p) /\
    gaia file' (join lines) = Ret o' /\ exit_code o' = 0 /\ binary o' = skipn (Z.to_nat a) (binary o).
Proof.
  intros file file' src p a o fin PM SM OB J HG HE Lf L16 Sz.
  destruct (assembled _ _ _ _ PM SM HG HE) as (st & code & _ & R & P & _ & _ & _ & Im). pose proof R as R0.
  unfold reference in R. rewrite P in R.
  destruct (block p a code (p1_of st) (program_16 _ _ PM) OB J P R) as (A0 & Mo & bytes & l & L & _ & F & Fi).
  specialize (Im Mo). rewrite (laid_skip _ _ _ _ L A0 Im).
  assert (U : forall ad op bs m md n, In (ad, op :: bs) code -> decode op = Some (m, md, n) -> unwritable m md bs = false).
  { intros ad op bs m md n Hi D. eapply C66_unwritable; eauto. }
  assert (exists lines, disassemble bytes = Some lines /\ List.length lines = List.length l) as (lines & D & Ln).
  { clear - U L F. revert l F. induction L as [a|a bs ps rest H IH]; intros l F; cbn [map snd] in F; inversion F as [|? x ? l' D F']; subst.
    - exists []. auto.
    - destruct IH with (2 := F') as (lines & Dl & Ln). { intros ad op r m md n Hi. eapply U. right. exact Hi. }
      destruct x as [[m md] r]. destruct D as (op & -> & D & B).
      destruct (C66_writable_partial op m md _ r D eq_refl B (U _ _ _ _ _ _ (or_introl eq_refl) D)) as (line & W).
      exists (line :: lines). split; [apply W; exact Dl|cbn; lia]. }
  exists lines. assert (Sb : Z.of_nat (List.length bytes) <= 1000000).
  { rewrite <- (laid_skip _ _ _ _ L A0 Im), skipn_length. lia. }
  destruct (C65_round_trip file' _ _ D Sb) as (o' & G' & E' & B'). exists o'. split; [exact D|]. split; [|auto].
  unfold pass1_program in P. rewrite pass1_body in P. destruct (items_count _ _ _ _ P (body_no_end p)) as (its & Ei & Ci). cbn [p1_items app] in Ei.
  rewrite Ln, <- Ci. unfold zlen. rewrite <- Ei, (same_length _ _ _ Fi). reflexivity.
Qed.

(** a program with an origin, a loop, a subroutine and a constant; and the same instructions written without a name *)
Lemma demo_block : one_block demo_stmts 512 /\ forall s, In s (body demo_stmts) -> ~ indexed_jump s.
Proof.
  split.
  - right. eexists. split; [vm_compute; reflexivity|]. intros v K. vm_compute in K. intuition discriminate.
  - intros s K. vm_compute in K. repeat (destruct K as [<- |K]; [intro X; vm_compute in X; try discriminate X; exact X|]). destruct K.
Qed.
Definition demo2 : list text :=
  [T "*=$200"; T " LDX #5"; T " DEX"; T " BNE $FD"; T " JSR $20D"; T " BEQ $08"; T " JMP $200"; T " STA $10,X"; T " STA $1234,Y"; T " RTS"].
Definition demo2_stmts : list stmt := match statements demo2 with Some p => p | None => [] end.
Example C68_case : exists o o' l, program_means (join demo) demo_stmts /\ program_means (join demo2) demo2_stmts /\
  gaia (T "f") (join demo) = Ret o /\ exit_code o = 0 /\ gaia (T "f") (join demo2) = Ret o' /\ exit_code o' = 0 /\ binary o = binary o' /\
  decoded (skipn 512 (binary o)) = Some l /\ List.length l = 9%nat /\ nth_error l 2 = Some ("BNE"%string, REL, [0xFD]) /\
  exists lines, disassemble (skipn 512 (binary o)) = Some lines /\ nth_error lines 8 = Some (T "RTS").
Proof.
  destruct demo_ok as (S & F & _). destruct (program_check _ _ F S) as (_ & _ & PM).
  assert (S2 : statements demo2 = Some demo2_stmts) by (vm_compute; reflexivity).
  assert (F2 : forallb fitsb demo2 = true) by (vm_compute; reflexivity). destruct (program_check _ _ F2 S2) as (_ & _ & PM2).
  do 3 eexists. split; [exact PM|]. split; [exact PM2|]. split; [vm_compute; reflexivity|]. split; [reflexivity|].
  split; [vm_compute; reflexivity|]. split; [reflexivity|]. split; [vm_compute; reflexivity|]. split; [vm_compute; reflexivity|].
  split; [reflexivity|]. split; [reflexivity|]. eexists. split; [vm_compute; reflexivity|]. reflexivity.
Qed.
