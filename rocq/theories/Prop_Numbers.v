(** Prop_Numbers.v -- C70: the labels in operands may be written as numbers. *)
From Verif Require Import Base Proof_Base Model_Main Spec_Isa Spec_Text Spec_Asm Spec_Diag Spec_Prog Spec_Report Spec_Edit
  Spec_Numbers Proof_Core Proof_Modes Proof_Diag Proof_Ref Proof_Sim2 Proof_Image Proof_Kept Proof_Prog Proof_Check Proof_Place
  Proof_Rewrite Proof_Reloc Prop_Program Prop_Edit Prop_Move.

(** JMP with an index register: the code accepts it if the label is defined later (C25) *)
Definition no_indexed_jump (s : stmt) : Prop := forall lab x, s <> SInstr lab "JMP" (ODirX x) /\ s <> SInstr lab "JMP" (ODirY x).

Definition filled (fin : env) (a : Z) (s s' : stmt) : Prop :=
  s' = s \/ exists lab m o v, s = SInstr lab m o /\ s' = SInstr lab m (with_number o v) /\ stands_for fin a m o v.
Definition like (fin : env) (it it' : item) : Prop :=
  it_addr it' = it_addr it /\ it_opcode it' = it_opcode it /\
  forall bs, encode_operand AsBuilt fin it = Some bs -> encode_operand AsBuilt fin it' = Some bs.
Record Like (fin : env) (st st' : pass1_state) : Prop := mkLike {
  l_addr : p1_addr st' = p1_addr st; l_env : p1_env st' = p1_env st; l_items : Forall2 (like fin) (p1_items st) (p1_items st') }.

Lemma number_expr : forall o v n, operand_expr o = Some (Lab n) -> operand_expr (with_number o v) = Some (Num v).
Proof. intros o v n H. destruct o; cbn in *; congruence || reflexivity. Qed.

(** the same mode and opcode *)
Lemma number_mode : forall e fin a lab m o v md op size, no_indexed_jump (SInstr lab m o) ->
  stands_for fin a m o v -> extends e fin ->
  denoted_mode m o (value_of e o) = Some md ->
  has_mode AsBuilt m md (match value_of e o with Some _ => true | None => false end) = Some (op, size) ->
  denoted_mode m (with_number o v) (Some v) = Some md /\ has_mode AsBuilt m md true = Some (op, size).
Proof.
  intros e fin a lab m o v md op size NJ (n & w & Eo & Ew & Ev) Ex D H.
  assert (V : forall x, value_of e o = Some x -> x = w).
  { intros x K. unfold value_of in K. rewrite Eo in K. cbn [eval] in K. apply Ex in K. congruence. }
  assert (HM : forall k, md <> ABSX -> md <> ABSY -> has_mode AsBuilt m md k = Some (op, size) -> has_mode AsBuilt m md true = Some (op, size)).
  { intros k N1 N2. unfold has_mode. destruct (listed m md) as [x|]; [auto|]. destruct md; congruence || discriminate. }
  unfold denoted_mode in *. destruct (is_branch_name m) eqn:Br.
  - destruct o; try discriminate. cbn [with_number]. split; [exact D|]. eapply HM; [..|exact H]; injection D as <-; discriminate.
  - subst v. destruct (is_jump_name m) eqn:Ju.
    + destruct o; try discriminate; cbn [with_number]; (split; [exact D|]).
      * eapply HM; [..|exact H]; injection D as <-; discriminate.
      * injection D as <-. unfold has_mode in *. destruct (listed m ABSX); [exact H|]. rewrite andb_false_r.
        destruct (String.eqb_spec m "JMP") as [->|NE]; [destruct (NJ lab e0) as [K _]; destruct K; reflexivity|exact H].
      * injection D as <-. unfold has_mode in *. destruct (listed m ABSY); [exact H|]. rewrite andb_false_r.
        destruct (String.eqb_spec m "JMP") as [->|NE]; [destruct (NJ lab e0) as [_ K]; destruct K; reflexivity|exact H].
      * eapply HM; [..|exact H]; injection D as <-; discriminate.
    + destruct (value_of e o) as [x|] eqn:K; [rewrite (V x eq_refl) in *; split; [destruct o; exact D|exact H]|].
      exfalso. destruct o; cbn [operand_expr] in Eo; discriminate.
Qed.

Lemma number_encode : forall e fin a m o v md op size, is_branch_name m = true \/ md <> REL ->
  denoted_mode m o (value_of e o) = Some md -> stands_for fin a m o v ->
  like fin (mkItem a m md op size (operand_expr o)) (mkItem a m md op size (operand_expr (with_number o v))).
Proof.
  intros e fin a m o v md op size RB D (n & w & Eo & Ew & Ev). split; [reflexivity|]. split; [reflexivity|].
  intros bs. unfold encode_operand. cbn [it_expr it_mode it_addr]. rewrite Eo, (number_expr o v n Eo). cbn [eval]. rewrite Ew.
  unfold denoted_mode in D. destruct (is_branch_name m) eqn:Br.
  - destruct o; try discriminate. injection D as <-. cbn zeta.
    destruct (_ && _); [|discriminate]. rewrite <- Ev. intros H.
    assert (0 <= v < 256) by (subst v; apply Z.mod_pos_bound; lia).
    destruct (Z.leb_spec v 255); [exact H|lia].
  - subst v. destruct RB as [RB|RB]; [discriminate|]. destruct md; auto. congruence.
Qed.

Lemma not_rel : forall m o x md, denoted_mode m o x = Some md -> is_branch_name m = true \/ md <> REL.
Proof.
  intros m o x md D. unfold denoted_mode in D. destruct (is_branch_name m); [auto|]. right.
  destruct (is_jump_name m); [destruct o; congruence|].
  destruct o, x; try discriminate; unfold by_size in D; repeat match type of D with context [if ?b then _ else _] => destruct b end; congruence.
Qed.

Lemma stmt_like : forall fin st st' s s' st1, Like fin st st' -> no_indexed_jump s -> filled fin (p1_addr st) s s' ->
  pass1_stmt AsBuilt st s = Some st1 -> extends (p1_env st1) fin ->
  exists st1', pass1_stmt AsBuilt st' s' = Some st1' /\ Like fin st1 st1'.
Proof.
  intros fin st st' s s' st1 [LA LE LI] NJ F H Ex.
  assert (RF : forall it, like fin it it) by (intro it; split; [reflexivity|]; split; [reflexivity|auto]).
  assert (RFs : forall its, Forall2 (like fin) its its) by (induction its; constructor; auto).
  destruct s as [|n|n v|v| |lab m o].
  1-5: destruct F as [->|(? & ? & ? & ? & K & _)]; [|discriminate]; cbn [pass1_stmt] in *; unfold define in *; rewrite ?LA, ?LE.
  - injection H as <-. eexists. split; [reflexivity|]. constructor; assumption.
  - destruct (lookup (p1_env st) n); [discriminate|]. injection H as <-. eexists. split; [reflexivity|]. constructor; cbn [p1_addr p1_env p1_items]; congruence.
  - destruct (lookup (p1_env st) n); [discriminate|]. injection H as <-. eexists. split; [reflexivity|]. constructor; cbn [p1_addr p1_env p1_items]; congruence.
  - injection H as <-. eexists. split; [reflexivity|]. constructor; cbn [p1_addr p1_env p1_items]; congruence.
  - injection H as <-. eexists. split; [reflexivity|]. constructor; assumption.
  - destruct (pass1_stmt_instr _ _ _ _ _ _ H) as (md & op & size & D & M & Fr & E1). rewrite E1 in Ex. cbn [p1_env] in Ex.
    assert (Go : forall o', denoted_mode m o' (value_of (with_own lab (p1_addr st) (p1_env st)) o') = Some md ->
      has_mode AsBuilt m md (match value_of (with_own lab (p1_addr st) (p1_env st)) o' with Some _ => true | None => false end) = Some (op, size) ->
      like fin (mkItem (p1_addr st) m md op size (operand_expr o)) (mkItem (p1_addr st) m md op size (operand_expr o')) ->
      exists st1', pass1_stmt AsBuilt st' (SInstr lab m o') = Some st1' /\ Like fin st1 st1').
    { intros o' D' M' L'. unfold value_of in D', M'.
      assert (X : forall s0, p1_addr s0 = p1_addr st -> p1_env s0 = with_own lab (p1_addr st) (p1_env st) -> p1_items s0 = p1_items st' ->
        exists st1', pass1_instr AsBuilt s0 m o' = Some st1' /\ Like fin st1 st1').
      { intros s0 A0 E0 I0. unfold pass1_instr. rewrite E0. cbn zeta. rewrite D', M'. eexists. split; [reflexivity|].
        subst st1. constructor; cbn [p1_addr p1_env p1_items]; try congruence.
        rewrite I0, A0. apply Forall2_app; [exact LI|]. constructor; [exact L'|constructor]. }
      cbn [pass1_stmt]. destruct lab as [n|]; cbn [with_own] in *.
      - unfold define. rewrite LE, LA, Fr. apply X; reflexivity.
      - apply X; assumption || reflexivity. }
    destruct F as [->|(lab' & m' & o' & v & E & -> & S)].
    + apply Go; auto.
    + injection E as <- <- <-.
      destruct (number_mode _ _ _ lab _ _ _ _ _ _ NJ S Ex D M) as (D' & M').
      pose proof S as (n & w & Eo & _).
      assert (V : value_of (with_own lab (p1_addr st) (p1_env st)) (with_number o v) = Some v)
        by (unfold value_of; rewrite (number_expr o v n Eo); reflexivity).
      apply Go; rewrite ?V; auto.
      eapply number_encode; eauto. eapply not_rel; eauto.
Qed.

(** the programs, statement by statement *)
Inductive fills (fin : env) : pass1_state -> list stmt -> list stmt -> Prop :=
| f_nil st : fills fin st [] []
| f_end st p p' : fills fin st (SEnd :: p) (SEnd :: p')
| f_cons st s s' st1 p p' : s <> SEnd -> filled fin (p1_addr st) s s' -> pass1_stmt AsBuilt st s = Some st1 ->
    fills fin st1 p p' -> fills fin st (s :: p) (s' :: p').

Lemma filled_end : forall fin a s s', filled fin a s s' -> s <> SEnd -> s' <> SEnd.
Proof. intros fin a s s' [->|(lab & m & o & v & -> & -> & _)] N; [exact N|discriminate]. Qed.

Lemma pass1_like : forall fin p p' st st' F, fills fin st p p' -> Forall no_indexed_jump p -> Like fin st st' ->
  pass1 AsBuilt st p = Some F -> p1_env F = fin -> exists F', pass1 AsBuilt st' p' = Some F' /\ Like fin F F'.
Proof.
  intros fin p p' st st' F H. revert st' F. induction H as [st|st p p'|st s s' st1 p p' N Fi E H IH]; intros st' F NJ L P EF.
  - injection P as <-. eexists. split; [reflexivity|exact L].
  - injection P as <-. eexists. split; [reflexivity|exact L].
  - rewrite pass1_cons in P by exact N. rewrite E in P. rewrite pass1_cons by (eapply filled_end; eauto).
    inversion NJ; subst. destruct (pass1_extends _ _ _ _ P) as (_ & Ex).
    destruct (stmt_like _ _ _ _ _ _ L H2 Fi E Ex) as (st1' & -> & L1). eapply IH; eauto.
Qed.

Lemma monotone_like : forall fin p p' st st' F, fills fin st p p' -> Forall no_indexed_jump p -> Like fin st st' ->
  pass1 AsBuilt st p = Some F -> p1_env F = fin -> monotone_from AsBuilt st p -> monotone_from AsBuilt st' p'.
Proof.
  intros fin p p' st st' F H. revert st' F. induction H as [st|st p p'|st s s' st1 p p' N Fi E H IH]; intros st' F NJ L P EF Mo.
  - exact I.
  - exact I.
  - rewrite pass1_cons in P by exact N. rewrite E in P.
    inversion NJ; subst. destruct (pass1_extends _ _ _ _ P) as (_ & Ex).
    destruct (stmt_like _ _ _ _ _ _ L H2 Fi E Ex) as (st1' & E1 & L1).
    assert (Q : monotone_from AsBuilt st1 p) by (destruct s; try congruence; cbn [monotone_from] in Mo; rewrite E in Mo; apply Mo).
    specialize (IH st1' F H3 L1 P eq_refl Q).
    destruct Fi as [->|(lab & m & o & v & -> & -> & _)].
    + destruct s; try congruence; cbn [monotone_from] in *; rewrite E1; (split; [|exact IH]); try exact I.
      rewrite (l_addr _ _ _ L). apply Mo.
    + cbn [monotone_from] in *. rewrite E1. split; [exact I|exact IH].
Qed.

Lemma pass2_like : forall fin its its' code, Forall2 (like fin) its its' -> pass2 AsBuilt fin its = Some code -> pass2 AsBuilt fin its' = Some code.
Proof.
  intros fin its its' code H. revert code. induction H as [|it it' its its' (A & O & E) H IH]; intros code P; cbn [pass2] in *; [exact P|].
  destruct (encode_operand AsBuilt fin it) as [bs|] eqn:B; [|discriminate]. rewrite (E _ eq_refl).
  destruct (pass2 AsBuilt fin its) as [l|]; [|discriminate]. rewrite (IH _ eq_refl), A, O. exact P.
Qed.

Lemma fills_of : forall e r r' pre st, ~ In SEnd pre -> pass1 AsBuilt (mkP1 0 [] []) pre = Some st ->
  (exists F, pass1 AsBuilt st r = Some F) -> List.length r' = List.length r ->
  (forall k s s', nth_error r k = Some s -> nth_error r' k = Some s' ->
     s' = s \/ exists lab m o v a, s = SInstr lab m o /\ s' = SInstr lab m (with_number o v) /\
       address AsBuilt (pre ++ r) (List.length pre + k) = Some a /\ stands_for e a m o v) ->
  fills e st r r'.
Proof.
  induction r as [|s r IH]; intros r' pre st NE P (F & PF) L H; destruct r' as [|s' r']; try discriminate; [constructor|].
  assert (s = SEnd \/ s <> SEnd) as [->|Ns] by (destruct s; auto; right; discriminate).
  { destruct (H 0%nat _ _ eq_refl eq_refl) as [->|(? & ? & ? & ? & ? & K & _)]; [constructor|discriminate]. }
  pose proof PF as PF0. rewrite pass1_cons in PF by exact Ns. destruct (pass1_stmt AsBuilt st s) as [st1|] eqn:E; [|discriminate].
  apply (f_cons e st s s' st1); auto.
  - destruct (H 0%nat _ _ eq_refl eq_refl) as [->|(lab & m & o & v & a & -> & -> & A & S)]; [left; reflexivity|].
    right. exists lab, m, o, v. split; [reflexivity|]. split; [reflexivity|].
    unfold address in A. rewrite Nat.add_0_r, body_app, firstn_app, firstn_all, Nat.sub_diag in A by exact NE. cbn [firstn] in A.
    rewrite app_nil_r in A. unfold pass1_program in A. rewrite P in A. injection A as <-. exact S.
  - apply (IH r' (pre ++ [s]) st1).
    + intro K. apply in_app_or in K. destruct K as [K|[K|[]]]; auto.
    + rewrite pass1_app, P, pass1_cons, E by assumption. reflexivity.
    + eauto.
    + cbn [List.length] in L. lia.
    + intros k t t' K K'. destruct (H (S k) t t' K K') as [->|(lab & m & o & v & a & -> & -> & A & Sf)]; [auto|].
      right. exists lab, m, o, v, a. split; [reflexivity|]. split; [reflexivity|]. split; [|exact Sf].
      rewrite <- app_assoc, app_length. cbn [app List.length].
      replace (List.length pre + 1 + k)%nat with (List.length pre + S k)%nat by lia. exact A.
Qed.

Lemma fills_count : forall e st p p', fills e st p p' -> count defines_label (body p') = count defines_label (body p).
Proof.
  intros e st p p' H. induction H as [st|st p p'|st s s' st1 p p' N Fi E H IH]; try reflexivity.
  assert (B : forall x q, x <> SEnd -> body (x :: q) = x :: body q) by (intros x q K; destruct x; try reflexivity; congruence).
  rewrite !B by (assumption || eapply filled_end; eauto). rewrite !count_cons, IH.
  destruct Fi as [->|(lab & m & o & v & -> & -> & _)]; reflexivity.
Qed.

(** ** C70.  The outcome is the same in all parts. *)
Theorem C70_numbers : forall file src src' p p' o,
  program_means src p -> program_means src' p' -> small src -> small src' ->
  written_out p p' -> Forall no_indexed_jump p -> monotone AsBuilt p ->
  gaia file src = Ret o -> exit_code o = 0 -> gaia file src' = Ret o.
Proof.
  intros file src src' p p' o M M' B B' (L & W) NJ Mo G X.
  destruct (success file src p o M B G X) as (F & code & E & P & S & Im). specialize (Im Mo).
  unfold pass1_program in E.
  assert (Fi : fills (p1_env F) (mkP1 0 [] []) p p').
  { apply (fills_of (p1_env F) p p' [] (mkP1 0 [] [])); auto; [eauto|].
    intros k s s' K K'. destruct (W k s s' K K') as [->|(lab & m & op & v & e & a & -> & -> & Le & A & St)]; [auto|].
    right. exists lab, m, op, v, a. split; [reflexivity|]. split; [reflexivity|]. split; [exact A|].
    unfold labels, pass1_program in Le. rewrite E in Le. injection Le as <-. exact St. }
  assert (L0 : Like (p1_env F) (mkP1 0 [] []) (mkP1 0 [] [])) by (constructor; [reflexivity|reflexivity|constructor]).
  destruct (pass1_like _ _ _ _ _ _ Fi NJ L0 E eq_refl) as (F' & E' & LF).
  destruct (succeeds file src' p' F' code) as (o' & G' & X' & S' & Im'); auto.
  { rewrite (l_env _ _ _ LF). eapply pass2_like; [apply (l_items _ _ _ LF)|exact P]. }
  assert (Mo' : monotone AsBuilt p') by (eapply monotone_like; eauto).
  rewrite G'. f_equal. rewrite (fills_count _ _ _ _ Fi) in S'. unfold SuccessReport in S, S'.
  destruct o as [x t b], o' as [x' t' b']. cbn [exit_code stdout binary] in *.
  rewrite (image_unique _ _ _ (Im' Mo') Im). congruence.
Qed.

(** a program with jumps and branches in both directions, an indexed and an immediate operand *)
Definition label_lines : list text :=
  [T "SIZE = 7"; T ".ORG $200"; T "TOP LDX #SIZE"; T " BEQ OUT"; T " STA TOP,X"; T " JSR OUT"; T " BNE TOP"; T "OUT JMP (TOP)"].
Definition number_lines : list text :=
  [T "SIZE = 7"; T ".ORG $200"; T "TOP LDX #7"; T " BEQ 8"; T " STA $200,X"; T " JSR $20C"; T " BNE $F4"; T "OUT JMP ($200)"].
Example C70_case : exists p p' o, program_means (join label_lines) p /\ program_means (join number_lines) p' /\
  small (join label_lines) /\ small (join number_lines) /\ written_out p p' /\ Forall no_indexed_jump p /\ monotone AsBuilt p /\
  gaia (T "a.asm") (join label_lines) = Ret o /\ exit_code o = 0 /\
  skipn 512 (binary o) = [162; 7; 240; 8; 157; 0; 2; 32; 12; 2; 208; 244; 108; 0; 2].
Proof.
  destruct (statements label_lines) as [p|] eqn:E1; [|vm_compute in E1; discriminate].
  destruct (statements number_lines) as [p'|] eqn:E2; [|vm_compute in E2; discriminate].
  exists p, p'. eexists. split; [apply means_lines; [vm_compute; reflexivity|exact E1]|]. split; [apply means_lines; [vm_compute; reflexivity|exact E2]|].
  do 2 (split; [vm_compute; reflexivity|]). vm_compute in E1, E2. injection E1 as <-. injection E2 as <-.
  split; [|split; [|split; [|split; [vm_compute; reflexivity|split; vm_compute; reflexivity]]]].
  - split; [reflexivity|]. intros k s s' K K'.
    do 8 (destruct k as [|k]; [cbn [nth_error] in K, K'; injection K as <-; injection K' as <-;
      first [left; reflexivity
            |right; do 6 eexists; split; [reflexivity|]; split; [reflexivity|]; split; [vm_compute; reflexivity|];
             split; [vm_compute; reflexivity|]; do 2 eexists; split; [reflexivity|]; split; [vm_compute; reflexivity|vm_compute; reflexivity]]|]).
    destruct k; discriminate K.
  - repeat constructor; discriminate.
  - vm_compute. repeat split; discriminate.
Qed.

(** ** The two conditions are needed *)
Ltac numbers l1 l2 :=
  let E1 := fresh "E" in let E2 := fresh "E" in
  destruct (statements l1) as [?p|] eqn:E1; [|vm_compute in E1; discriminate];
  destruct (statements l2) as [?p|] eqn:E2; [|vm_compute in E2; discriminate];
  do 4 eexists; split; [apply means_lines; [vm_compute; reflexivity|exact E1]|];
  split; [apply means_lines; [vm_compute; reflexivity|exact E2]|];
  vm_compute in E1, E2; injection E1 as <-; injection E2 as <-.
(** an indexed JMP is accepted only if the label is defined later *)
Theorem C70_indexed_jump : exists src src' p p' o o', program_means src p /\ program_means src' p' /\ written_out p p' /\ monotone AsBuilt p /\
  gaia (T "a.asm") src = Ret o /\ exit_code o = 0 /\ gaia (T "a.asm") src' = Ret o' /\ exit_code o' = 1.
Proof.
  exists (join [T " JMP FWD,X"; T "FWD NOP"]), (join [T " JMP 3,X"; T "FWD NOP"]).
  numbers [T " JMP FWD,X"; T "FWD NOP"] [T " JMP 3,X"; T "FWD NOP"].
  split; [|split; [vm_compute; repeat split; discriminate|split; [vm_compute; reflexivity|split; [reflexivity|split; [vm_compute; reflexivity|reflexivity]]]]].
  split; [reflexivity|]. intros k s s' K K'. destruct k as [|k]; cbn [nth_error] in K, K'.
  - injection K as <-. injection K' as <-. right. do 6 eexists. split; [reflexivity|]. split; [reflexivity|].
    split; [vm_compute; reflexivity|]. split; [vm_compute; reflexivity|]. do 2 eexists. split; [reflexivity|]. split; [vm_compute; reflexivity|reflexivity].
  - destruct k as [|k]; cbn [nth_error] in K, K'; [|destruct k; discriminate K]. injection K as <-. injection K' as <-. left. reflexivity.
Qed.
(** an origin that moves backwards: the zero bytes of a forward reference overwrite code (C27) *)
Theorem C70_origins : exists src src' p p' o o', program_means src p /\ program_means src' p' /\ written_out p p' /\ Forall no_indexed_jump p /\
  gaia (T "a.asm") src = Ret o /\ exit_code o = 0 /\ gaia (T "a.asm") src' = Ret o' /\ binary o' <> binary o.
Proof.
  set (front := [T ".ORG 3"; T " NOP"; T " NOP"; T " NOP"; T ".ORG 0"; T " BRK"; T " NOP"; T " NOP"; T ".ORG 6"]).
  exists (join (front ++ [T " JMP FWD"; T "FWD NOP"])), (join (front ++ [T " JMP 9"; T "FWD NOP"])).
  numbers (front ++ [T " JMP FWD"; T "FWD NOP"]) (front ++ [T " JMP 9"; T "FWD NOP"]).
  split; [|split; [repeat constructor; discriminate|split; [vm_compute; reflexivity|split; [reflexivity|split; [vm_compute; reflexivity|vm_compute; discriminate]]]]].
  split; [reflexivity|]. intros k s s' K K'.
  do 9 (destruct k as [|k]; [cbn [nth_error] in K, K'; injection K as <-; injection K' as <-; left; reflexivity|]).
  destruct k as [|k]; cbn [nth_error] in K, K'.
  - injection K as <-. injection K' as <-. right. do 6 eexists. split; [reflexivity|]. split; [reflexivity|].
    split; [vm_compute; reflexivity|]. split; [vm_compute; reflexivity|]. do 2 eexists. split; [reflexivity|]. split; [vm_compute; reflexivity|reflexivity].
  - destruct k as [|k]; cbn [nth_error] in K, K'; [|destruct k; discriminate K]. injection K as <-. injection K' as <-. left. reflexivity.
Qed.
