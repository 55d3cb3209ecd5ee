(** Prop_Code.v -- C18, C20, C27, C28, C29, C43: the code of a successfully assembled
    program, in the file. *)
From Verif Require Import Base Proof_Base Model_Main Spec_Isa Spec_Text Spec_Asm
  Spec_Report Proof_Opcode Proof_Lex2 Proof_Core Proof_Sim2 Proof_Run Proof_Source Proof_Modes Spec_Diag Spec_Prog Proof_Diag Proof_Whole Proof_Ref Proof_Image
  Proof_Regular Proof_At Proof_Prog Proof_Kept Proof_Check Prop_Program.

(** ** Operand bytes *)
Lemma lo_hi : forall v, 0 <= v <= 65535 -> lo v + 256 * hi v = v /\ 0 <= lo v < 256 /\ 0 <= hi v < 256.
Proof.
  intros v H. unfold lo, hi. pose proof (Z.mod_pos_bound v 256 ltac:(lia)). pose proof (Z.div_mod v 256 ltac:(lia)).
  assert (v / 256 < 256) by (apply Z.div_lt_upper_bound; lia). assert (0 <= v / 256) by (apply Z.div_pos; lia).
  rewrite (Z.mod_small (v / 256)) by lia. lia.
Qed.

Lemma signed_mod : forall d, -128 <= d <= 127 -> 0 <= d mod 256 < 256 /\ signed_byte (d mod 256) = d.
Proof.
  intros d H. pose proof (Z.mod_pos_bound d 256 ltac:(lia)) as B. split; [exact B|]. unfold signed_byte.
  destruct (Z.lt_ge_cases d 0).
  - assert (d mod 256 = d + 256) as -> by (rewrite <- (Z.mod_small (d + 256) 256) by lia; rewrite <- (Z.mod_add d 1 256) by lia; f_equal; lia).
    destruct (Z.ltb_spec (d + 256) 128); lia.
  - rewrite Z.mod_small by lia. destruct (Z.ltb_spec d 128); lia.
Qed.

Lemma denoted_small : forall m o v md, denoted_mode m o (Some v) = Some md ->
  match md with IMM | ZP | ZPX | ZPY | INDX | INDY => v <= 255 | _ => True end.
Proof.
  intros m o v md H. unfold denoted_mode, by_size in H. destruct (is_branch_name m), (is_jump_name m);
    destruct o; try discriminate; try (injection H as <-; exact I);
    repeat match type of H with context [if existsb ?f ?l then _ else _] => destruct (existsb f l) end;
    try (injection H as <-; exact I);
    match type of H with context [?a <=? ?b] => destruct (Z.leb_spec a b) | context [?a <? ?b] => destruct (Z.ltb_spec a b) end;
    try discriminate; injection H as <-; try exact I; lia.
Qed.

Lemma denoted_open : forall m o md, denoted_mode m o None = Some md -> operand_expr o <> None ->
  match md with IMM | ZP | ZPX | ZPY | INDX | INDY | ACC | IMP => False | _ => True end.
Proof.
  intros m o md H N. unfold denoted_mode in H. destruct (is_branch_name m), (is_jump_name m);
    destruct o; cbn in N; try congruence; try discriminate; injection H as <-; exact I.
Qed.

Lemma denoted_narrow : forall m o v md, denoted_mode m o v = Some md -> (md = ACC \/ md = IMP) -> operand_expr o = None.
Proof.
  intros m o v md H N. unfold denoted_mode, by_size in H. destruct (is_branch_name m), (is_jump_name m);
    destruct o; try reflexivity; try discriminate; exfalso; try (injection H as <-; destruct N; discriminate);
    destruct v as [v|]; try discriminate;
    match type of H with context [?a <=? ?b] => destruct (Z.leb_spec a b) | context [?a <? ?b] => destruct (Z.ltb_spec a b) end;
    try discriminate; injection H as <-; destruct N; discriminate.
Qed.

Lemma encode_holds : forall r e it x v bs, encode_operand r e it = Some bs -> it_expr it = Some x -> eval e x = Some v ->
  0 <= v <= 65535 ->
  match it_mode it with IMM | ZP | ZPX | ZPY | INDX | INDY => v <= 255 | ACC | IMP => False
                      | REL => match x with Num _ => v <= 255 | Lab _ => True end | _ => True end ->
  operand_holds (it_addr it) (it_mode it) x v bs.
Proof.
  intros r e it x v bs H Ex Ev B S. unfold encode_operand in H. rewrite Ex, Ev in H. unfold operand_holds.
  destruct (lo_hi v B) as (L1 & L2 & L3).
  destruct (it_mode it); try (destruct S; fail);
    try (injection H as <-; assert (lo v = v) as -> by (apply Z.mod_small; lia); split; [reflexivity|lia]);
    try (injection H as <-; exists (lo v), (hi v); auto).
  destruct x as [w|l].
  - destruct (Z.leb_spec v 255); [|lia]. injection H as <-. split; [reflexivity|lia].
  - destruct (Z.leb_spec (-128) (v - (it_addr it + 2))), (Z.leb_spec (v - (it_addr it + 2)) 127); try discriminate.
    cbn [andb] in H. injection H as <-. destruct (signed_mod (v - (it_addr it + 2))) as [K1 K2]; [lia|].
    eexists. split; [reflexivity|]. split; [exact K1|]. rewrite K2. lia.
Qed.

(** ** C43: the bytes of an instruction determine it *)
(** the hypothesis on the value excludes labels beyond $FFFF (see C29) and a branch with a
    number above $FF (see C28), the one on JMP its indexed forms (see C25) *)
Theorem C43_disassembles_partial : forall file src p o k lab m op, program_means src p -> small src ->
  gaia file src = Ret o -> exit_code o = 0 -> nth_error (body p) k = Some (SInstr lab m op) ->
  (m = "JMP"%string -> forall e, op <> ODirX e /\ op <> ODirY e) ->
  exists code fin a e md opc bs, reference AsBuilt p = Some code /\ labels AsBuilt p = Some fin /\
    address AsBuilt p k = Some a /\ labels_at AsBuilt p k = Some e /\
    nth_error code (instr_number p k) = Some (a, opc :: bs) /\
    decode opc = Some (m, md, 1 + Z.of_nat (List.length bs)) /\
    denoted_mode m op (value_of (with_own lab a e) op) = Some md /\
    match operand_expr op with
    | None => bs = []
    | Some x => exists v, eval fin x = Some v /\
        (v <= 0xFFFF -> (is_branch_name m = true -> match x with Num _ => v <= 0xFF | _ => True end) ->
         operand_holds a md x v bs)
    end.
Proof.
  intros file src p o k lab m op HM HB HG HE K HJ. destruct (assembled _ _ _ _ HM HB HG HE) as (st & code & A & R & P & _).
  destruct (instr_piece _ _ _ _ _ _ _ R K) as (a & e & fin & md & opc & size & bs & E1 & E2 & E3 & Ex & D & H & En & N).
  exists code, fin, a, e, md, opc, bs. do 4 (split; [assumption|]). split; [exact N|].
  assert (L : listed m md = Some (opc, size)).
  { destruct (has_mode_cases _ _ _ _ _ _ H) as [L|(_ & -> & _ & M & _)]; [exact L|].
    exfalso. destruct (denoted_indexed _ _ _ D M) as (x & [-> | ->]); destruct (HJ eq_refl x); congruence. }
  assert (Ebs : size = 1 + Z.of_nat (List.length bs)).
  { pose proof (listed_size _ _ _ _ L) as Sz. unfold encode_operand in En. cbn [it_expr it_mode] in En.
    destruct (operand_expr op) as [x|] eqn:Eo.
    - destruct (eval fin x) as [v|]; [|discriminate].
      assert (md <> ACC /\ md <> IMP) as [N1 N2] by (split; intros ->; [pose proof (denoted_narrow _ _ _ _ D (or_introl eq_refl))|pose proof (denoted_narrow _ _ _ _ D (or_intror eq_refl))]; congruence).
      destruct md; try congruence; try (injection En as <-; exact Sz).
      destruct x; [destruct (v <=? 255); injection En as <-; exact Sz|].
      cbn zeta in En. destruct (_ && _); [|discriminate]. injection En as <-. exact Sz.
    - injection En as <-. rewrite Sz.
      assert (md = ACC \/ md = IMP) as [-> | ->]; [|reflexivity|reflexivity].
      unfold denoted_mode in D. destruct op; try discriminate; destruct (is_branch_name m), (is_jump_name m); try discriminate.
      + destruct (existsb _ _); injection D as <-; auto.
      + injection D as <-; auto. }
  split; [rewrite <- Ebs; apply decode_listed; exact L|]. split; [exact D|].
  destruct (operand_expr op) as [x|] eqn:Eo.
  2:{ unfold encode_operand in En. cbn [it_expr] in En. injection En as <-. reflexivity. }
  assert (exists v, eval fin x = Some v) as (v & Ev).
  { unfold encode_operand in En. cbn [it_expr] in En. destruct (eval fin x); [eauto|discriminate]. }
  exists v. split; [exact Ev|]. intros Hv Hbr.
  assert (Hv0 : 0 <= v).
  { pose proof (program_16 _ _ HM) as S16. destruct x as [w|n].
    - cbn in Ev. injection Ev as ->.
      assert (In (SInstr lab m op) p) as I.
      { apply nth_error_In in K. clear - K. induction p as [|s p IH]; [destruct K|].
        destruct s; cbn [body] in K; try destruct K as [<- |K]; try (left; reflexivity); try (right; apply IH; exact K). destruct K. }
      rewrite Forall_forall in S16. specialize (S16 _ I). cbn in S16. rewrite Eo in S16. cbn in S16. lia.
    - destruct (program_bounds _ _ _ S16 P) as [_ Bd]. unfold labels in E3. rewrite P in E3. injection E3 as <-.
      apply (Bd n v Ev). }
  pose proof (encode_holds AsBuilt fin (mkItem a m md opc size (Some x)) x v bs En eq_refl Ev (conj Hv0 Hv)) as O.
  cbn [it_addr it_mode] in O. apply O. clear O.
  destruct (value_of (with_own lab a e) op) as [w|] eqn:W.
  - assert (w = v) as ->.
    { unfold value_of in W. rewrite Eo in W. destruct x as [u|n]; cbn in W, Ev; [congruence|]. apply Ex in W. congruence. }
    pose proof (denoted_small _ _ _ _ D) as Sm.
    pose proof (denoted_narrow _ _ _ _ D) as Nw. rewrite Eo in Nw.
    destruct md; auto; try (discriminate (Nw (or_introl eq_refl))); try (discriminate (Nw (or_intror eq_refl))).
    apply Hbr. destruct (denoted_rel _ _ _ D) as (B & _). exact B.
  - pose proof (denoted_open _ _ _ D ltac:(congruence)) as Sm. destruct md; try (destruct Sm; fail); auto.
    apply Hbr. destruct (denoted_rel _ _ _ D) as (B & _). exact B.
Qed.

(** ** C28: operands are not truncated *)
Theorem C28_not_truncated_partial : forall file src p o k lab m op v, program_means src p -> small src ->
  gaia file src = Ret o -> exit_code o = 0 -> nth_error (body p) k = Some (SInstr lab m op) ->
  operand_expr op = Some (Num v) -> (is_branch_name m = true -> v <= 0xFF) ->
  (m = "JMP"%string -> forall e, op <> ODirX e /\ op <> ODirY e) ->
  exists code a md opc bs, reference AsBuilt p = Some code /\
    nth_error code (instr_number p k) = Some (a, opc :: bs) /\
    documented m md opc /\ operand_holds a md (Num v) v bs.
Proof.
  intros file src p o k lab m op v HM HB HG HE K Eo Hbr HJ.
  destruct (C43_disassembles_partial _ _ _ _ _ _ _ _ HM HB HG HE K HJ) as (code & fin & a & e & md & opc & bs & R & _ & _ & _ & N & D & Dm & O).
  exists code, a, md, opc, bs. do 2 (split; [assumption|]). rewrite Eo in O. destruct O as (w & Ev & O). cbn in Ev. injection Ev as <-.
  split.
  - unfold decode in D. destruct (find _ table) as [[[[n d] oc] by_]|] eqn:F; [|discriminate]. injection D as -> -> ->.
    apply find_some in F. destruct F as [F1 F2]. apply Z.eqb_eq in F2. subst oc. eexists. exact F1.
  - apply O; [|exact Hbr].
    assert (In (SInstr lab m op) p) as I.
    { apply nth_error_In in K. clear - K. induction p as [|s p IH]; [destruct K|].
      destruct s; cbn [body] in K; try destruct K as [<- |K]; try (left; reflexivity); try (right; apply IH; exact K). destruct K. }
    pose proof (program_16 _ _ HM) as S16. rewrite Forall_forall in S16. specialize (S16 _ I). cbn in S16. rewrite Eo in S16. cbn in S16. lia.
Qed.

(** a branch with the operand $1234 is assembled as if it were $34 *)
Theorem C28_refuted : exists file src p o v, program_means src p /\ gaia file src = Ret o /\ exit_code o = 0 /\
  nth_error p 0 = Some (SInstr None "BNE" (ODir (Num v))) /\ 0xFF < v /\ binary o = [0xD0; v mod 256].
Proof.
  set (lines := [T " BNE $1234"]).
  exists (T "a.asm"), (join lines). destruct (statements lines) as [p|] eqn:E; [|vm_compute in E; discriminate].
  destruct (program_check lines p ltac:(vm_compute; reflexivity) E) as (_ & _ & M).
  vm_compute in E. injection E as <-.
  eexists _, _, 0x1234. split; [exact M|]. split; [vm_compute; reflexivity|]. split; [reflexivity|].
  split; [reflexivity|]. split; [lia|reflexivity].
Qed.

(** ** C27: code stays where it was placed *)
(** if no origin moves backwards, the bytes of every instruction are in the file *)
Theorem C27_ascending_partial : forall file src p o k lab m op, program_means src p -> small src ->
  gaia file src = Ret o -> exit_code o = 0 -> monotone AsBuilt p ->
  nth_error (body p) k = Some (SInstr lab m op) ->
  exists code a bs, reference AsBuilt p = Some code /\ address AsBuilt p k = Some a /\
    nth_error code (instr_number p k) = Some (a, bs) /\ holds_at (binary o) a bs.
Proof.
  intros file src p o k lab m op HM HB HG HE Mo K. destruct (assembled _ _ _ _ HM HB HG HE) as (st & code & A & R & P & C & _ & _ & I).
  destruct (instr_piece _ _ _ _ _ _ _ R K) as (a & e & fin & md & opc & size & bs & E1 & E2 & E3 & Ex & D & H & En & N).
  exists code, a, (opc :: bs). do 2 (split; [assumption|]). split; [exact N|].
  destruct (good_done p st code A (program_16 _ _ HM)) as (G & F & _).

  pose proof (diag_from_sorted p 1 (mkD 0 [] []) Mo Coq.Init.Logic.I (Z.le_refl 0) (Forall_nil _)) as S.
  fold (diagnose AsBuilt p) in S. rewrite A in S.
  destruct (nth_error_split _ _ N) as (l1 & l2 & Ec & _).
  destruct (sorted_pieces AsBuilt _ _ _ 0 C G F S eq_refl _ _ _ _ Ec) as [Ha Hn].
  eapply image_holds; [apply I; exact Mo|exact Ha|exact Ec|]. intros x Hx. apply Hn. lia.
Qed.

(** if every label is defined before it is used, the file is the image of the code,
    wherever the origins are *)
Theorem C27_no_forward_partial : forall file src p o, program_means src p -> small src ->
  gaia file src = Ret o -> exit_code o = 0 -> no_forward_reference AsBuilt p ->
  exists code, reference AsBuilt p = Some code /\ is_image code (binary o).
Proof.
  intros file src p o HM HB HG HE NF. destruct (assembled _ _ _ _ HM HB HG HE) as (st & code & A & R & P & C & _ & W & _).
  exists code. split; [exact R|].
  destruct (good_done p st code A (program_16 _ _ HM)) as (G & F & Ec).
  assert (Op : Forall (fun q => is_open q = false) (d_done st)).
  { apply Forall_forall. intros q Hq. destruct (In_nth_error _ _ Hq) as (i & Hi).
    destruct (placed_index p st code A i q Hi) as (k & s & K1 & K2 & K3).
    destruct (placed_at p st code A k s K1 K2) as (q' & N' & _ & O & _). rewrite K3, Hi in N'. injection N' as <-.
    destruct (is_open q); [|reflexivity]. destruct O as [O _]. destruct (O eq_refl) as (lab & m & op & a & e & H1 & H2 & H3 & H4).
    rewrite (NF _ _ _ _ _ _ H1 H2 H3) in H4. discriminate. }
  assert (writes AsBuilt st = code) as <-; [|exact W].
  unfold writes. rewrite <- Ec. clear - Op.
  assert (last_writes AsBuilt (d_env st) (d_done st) = []) as ->.
  { induction Op as [|q l O Op IH]; [reflexivity|]. cbn [last_writes]. rewrite IH. unfold is_open in O. destruct (pl_bytes q); [reflexivity|discriminate]. }
  rewrite app_nil_r. generalize 0. induction Op as [|q l O Op IH]; intro z; [reflexivity|]. cbn [first_writes code_of]. rewrite IH.
  unfold is_open in O. destruct (pl_bytes q); [reflexivity|discriminate].
Qed.

(** the general case, byte by byte: the byte at [x] is the one of the instruction of index
    [k] unless a later instruction covers [x] too; or an earlier forward reference does; or
    the zero bytes of a later forward reference do *)
Theorem C27_kept_partial : forall file src p o k x, program_means src p -> small src ->
  gaia file src = Ret o -> exit_code o = 0 -> spans AsBuilt p k x ->
  (forall j, (k < j)%nat -> ~ spans AsBuilt p j x) ->
  (forall j, (k < j)%nat -> ~ zero_span AsBuilt p j x) ->
  (forall j, (j < k)%nat -> forward AsBuilt p j -> ~ spans AsBuilt p j x) ->
  exists code a bs b, reference AsBuilt p = Some code /\ address AsBuilt p k = Some a /\
    nth_error code (instr_number p k) = Some (a, bs) /\ nth_error bs (Z.to_nat (x - a)) = Some b /\
    nth_error (binary o) (Z.to_nat x) = Some b.
Proof.
  intros file src p o k x HM HB HG HE HS HN HZ HF. destruct (assembled _ _ _ _ HM HB HG HE) as (st & code & A & R & P & C & _ & W & _).
  pose proof HS as (lab & m & op & a0 & b0 & K & _).
  destruct (instr_piece _ _ _ _ _ _ _ R K) as (a & e & fin & md & opc & size & bs & E1 & E2 & E3 & Ex & D & H & En & N).
  destruct (bytes_kept p st code A (program_16 _ _ HM) k a (opc :: bs) x HS N HN HZ HF) as (Ha & B1 & B2).
  exists code, a, (opc :: bs). destruct (nth_error (opc :: bs) (Z.to_nat (x - a))) as [b|] eqn:Eb.
  2:{ apply nth_error_None in Eb. lia. }
  exists b. do 3 (split; [assumption|]). split; [reflexivity|].
  destruct (program_bounds _ _ _ (program_16 _ _ HM) P) as [_ _].
  assert (0 <= a).
  { destruct (good_done p st code A (program_16 _ _ HM)) as (G & _). destruct (placed_at p st code A k _ K eq_refl) as (q & Nq & _ & _ & Ad & _).
    rewrite E1 in Ad. injection Ad as ->. rewrite Forall_forall in G. apply (G q (nth_error_In _ _ Nq)). }
  destruct W as [W1 W2]. rewrite W2; [rewrite B1; reflexivity|]. split; [lia|].
  destruct (Z.lt_ge_cases x (image_end (writes AsBuilt st))) as [L|L]; [exact L|]. exfalso.
  assert (byte_at (writes AsBuilt st) x = None) as Z0; [|congruence].
  apply byte_at_none. intros q bs' Hq. intro Hr.
  assert (forall l, In (q, bs') l -> q + zlen bs' <= image_end l) as Hl.
  { clear. induction l as [|[z b] l IH]; [intros []|]. intros [K|K]; cbn [image_end].
    - injection K as -> ->. fold (zlen bs'). lia.
    - specialize (IH K). lia. }
  specialize (Hl _ Hq). lia.
Qed.

(** ** C20: every forward reference is resolved *)
Lemma label_place : forall r p fin n v, labels r p = Some fin -> lookup fin n = Some v ->
  exists j s a, nth_error (body p) j = Some s /\ defines s = Some n /\ address r p j = Some a /\
    v = match s with SConst _ c => c | _ => a end.
Proof.
  intros r p fin n v L H. unfold labels in L. destruct (pass1_program r p) as [st|] eqn:E; [|discriminate]. injection L as <-.
  pose proof E as E'. unfold pass1_program in E'. rewrite pass1_body in E'.
  destruct (pass1_env r _ _ _ (body_no_end p) E') as [_ C].
  destruct (proj1 (C n)) as [(w & K)|(s & Hs & D)]; [eauto|discriminate|].
  destruct (In_nth_error _ _ Hs) as (j & Hj). destruct (pass1_label r p j s n st Hj D E) as (a & A & B).
  exists j, s, a. do 3 (split; [assumption|]). congruence.
Qed.

Theorem C20_resolved : forall file src p o k lab m op, program_means src p -> small src ->
  gaia file src = Ret o -> exit_code o = 0 -> nth_error (body p) k = Some (SInstr lab m op) -> forward AsBuilt p k ->
  exists n v j s c a opc bs,
    operand_expr op = Some (Lab n) /\
    (* the label is defined later, and this is its value *)
    (k < j)%nat /\ nth_error (body p) j = Some s /\ defines s = Some n /\ address AsBuilt p j = Some c /\
    v = match s with SConst _ w => w | _ => c end /\
    (* the operand bytes hold it *)
    address AsBuilt p k = Some a /\
    (is_branch_name m = true -> exists b, bs = [b] /\ 0 <= b < 256 /\ a + 2 + signed_byte b = v) /\
    (is_branch_name m = false -> is_jump_name m = true /\ bs = [lo v; hi v] /\ (v <= 0xFFFF -> lo v + 256 * hi v = v)) /\
    (* and they are in the file, but where a later forward reference lies *)
    forall x, a <= x < a + 1 + Z.of_nat (List.length bs) ->
      (forall i, (k < i)%nat -> forward AsBuilt p i -> ~ spans AsBuilt p i x) ->
      nth_error (binary o) (Z.to_nat x) = nth_error (opc :: bs) (Z.to_nat (x - a)).
Proof.
  intros file src p o k lab m op HM HB HG HE K FW. destruct (assembled _ _ _ _ HM HB HG HE) as (st & code & A & R & P & C & _ & W & _).
  destruct (instr_piece _ _ _ _ _ _ _ R K) as (a & e & fin & md & opc & size & bs & E1 & E2 & E3 & Ex & D & H & En & N).
  pose proof FW as (lab' & m' & op' & a' & e' & K' & E1' & E2' & U). rewrite K in K'. injection K' as <- <- <-.
  rewrite E1 in E1'. rewrite E2 in E2'. injection E1' as <-. injection E2' as <-.
  unfold unresolved in U. destruct (operand_expr op) as [[w|n]|] eqn:Eo; try discriminate.
  destruct (lookup (with_own lab a e) n) as [w|] eqn:Lk; [discriminate|].
  assert (exists v, lookup fin n = Some v) as (v & Lv).
  { unfold encode_operand in En. cbn [it_expr eval] in En. destruct (lookup fin n); [eauto|discriminate]. }
  destruct (label_place _ _ _ _ _ E3 Lv) as (j & s & c & J1 & J2 & J3 & J4).
  assert (Hkj : (k < j)%nat).
  { destruct (Nat.lt_ge_cases k j) as [L|L]; [exact L|]. exfalso.
    assert (exists w, lookup (with_own lab a e) n = Some w) as (w & Q); [|congruence].
    apply Nat.lt_eq_cases in L. destruct L as [L|L].
    - assert (exists w, lookup e n = Some w) as (w & Q).
      { unfold labels_at in E2. destruct (pass1_program AsBuilt (firstn k (body p))) as [sk|] eqn:Ek; [|discriminate]. injection E2 as <-.
        destruct (body_split _ _ _ K) as (_ & Nk & _).
        destruct (pass1_env AsBuilt _ _ _ Nk Ek) as [_ Cn]. apply Cn. right. exists s. split; [|exact J2].
        apply nth_error_In with (n := j). rewrite <- (firstn_skipn k (body p)) in J1. rewrite nth_error_app1 in J1; [exact J1|].
        rewrite firstn_length. assert (k < List.length (body p))%nat by (apply nth_error_Some; congruence). lia. }
      destruct lab as [l|]; cbn [with_own lookup]; [destruct (text_eqb l n); eauto|eauto].
    - subst j. rewrite K in J1. injection J1 as <-. cbn [defines] in J2. subst lab. cbn [with_own lookup].
      rewrite text_eqb_same. eauto. }
  exists n, v, j, s, c, a, opc, bs. do 7 (split; [auto; fail|]).
  assert (Dn : denoted_mode m op None = Some md).
  { rewrite <- D. f_equal. unfold value_of. rewrite Eo. cbn [eval]. symmetry. exact Lk. }
  assert (V0 : 0 <= v). { destruct (program_bounds _ _ _ (program_16 _ _ HM) P) as [_ Bd]. unfold labels in E3. rewrite P in E3. injection E3 as <-. apply (Bd n v Lv). }
  unfold encode_operand in En. cbn [it_expr eval it_mode it_addr] in En. rewrite Lv in En.
  assert (Bsz : size = 1 + Z.of_nat (List.length bs)).
  { destruct (has_mode_bytes _ _ _ _ _ _ H) as [Sz _]. pose proof (denoted_open _ _ _ Dn ltac:(congruence)) as Op.
    destruct md; try (destruct Op; fail); try (injection En as <-; exact Sz).
    cbn zeta in En. destruct (_ && _); [|discriminate]. injection En as <-. exact Sz. }
  split; [|split].
  - intro Br. unfold denoted_mode in Dn. rewrite Br in Dn. destruct op; try discriminate. injection Dn as <-. cbn zeta in En.
    destruct (Z.leb_spec (-128) (v - (a + 2))), (Z.leb_spec (v - (a + 2)) 127); try discriminate. cbn [andb] in En. injection En as <-.
    destruct (signed_mod (v - (a + 2))) as [K1 K2]; [lia|]. eexists. split; [reflexivity|]. split; [exact K1|]. rewrite K2. lia.
  - intro Br. unfold denoted_mode in Dn. rewrite Br in Dn. destruct (is_jump_name m) eqn:Jm.
    2:{ exfalso. destruct op; try discriminate. }
    split; [reflexivity|]. split; [destruct op; try discriminate; injection Dn as <-; congruence|].
    intro V1. apply lo_hi. lia.
  - intros x Hx Hn.
    assert (Sx : spans AsBuilt p k x).
    { destruct (address_next _ _ _ _ _ _ _ P K) as (a1 & e1 & md1 & op1 & size1 & A1 & A2 & A3 & A4 & A5).
      rewrite E1 in A1. injection A1 as <-. rewrite E2 in A2. injection A2 as <-. rewrite D in A3. injection A3 as <-.
      rewrite H in A4. injection A4 as <- <-. exists lab, m, op, a, (a + size). repeat (split; [assumption|]). lia. }
    destruct (forward_kept p st code A (program_16 _ _ HM) k a (opc :: bs) x FW Sx N Hn) as (Ha & B1 & B2).
    assert (0 <= a).
    { destruct (good_done p st code A (program_16 _ _ HM)) as (G & _). destruct (placed_at p st code A k _ K eq_refl) as (q & Nq & _ & _ & Ad & _).
      rewrite E1 in Ad. injection Ad as ->. rewrite Forall_forall in G. apply (G q (nth_error_In _ _ Nq)). }
    destruct W as [W1 W2].
    destruct (nth_error (opc :: bs) (Z.to_nat (x - a))) as [b|] eqn:Eb; [|apply nth_error_None in Eb; lia].
    rewrite W2; [rewrite B1; reflexivity|]. split; [lia|].
    destruct (Z.lt_ge_cases x (image_end (writes AsBuilt st))) as [L|L]; [exact L|]. exfalso.
    assert (byte_at (writes AsBuilt st) x = None) as Z0; [|congruence].
    apply byte_at_none. intros q bs' Hq Hr.
    assert (forall l, In (q, bs') l -> q + zlen bs' <= image_end l) as Hl.
    { clear. induction l as [|[z b'] l IH]; [intros []|]. intros [K|K]; cbn [image_end].
      - injection K as -> ->. fold (zlen bs'). lia.
      - specialize (IH K). lia. }
    specialize (Hl _ Hq). lia.
Qed.

(** ** C27 as written fails *)
Definition spansb (p : list stmt) (k : nat) (x : Z) : bool :=
  match nth_error (body p) k with
  | Some (SInstr _ _ _) =>
    match address AsBuilt p k, address AsBuilt p (S k) with
    | Some a, Some b => (a <=? x) && (x <? b)
    | _, _ => false
    end
  | _ => false
  end.
Lemma spansb_spec : forall p k x, spans AsBuilt p k x <-> spansb p k x = true.
Proof.
  intros p k x. unfold spansb, spans. split.
  - intros (lab & m & o & a & b & -> & -> & -> & H). apply andb_true_iff. split; [apply Z.leb_le|apply Z.ltb_lt]; lia.
  - destruct (nth_error (body p) k) as [[]|]; try discriminate.
    destruct (address AsBuilt p k) as [a|]; [|discriminate]. destruct (address AsBuilt p (S k)) as [b|]; [|discriminate].
    intro H. apply andb_true_iff in H. destruct H as [H1 H2]. apply Z.leb_le in H1. apply Z.ltb_lt in H2.
    do 5 eexists. repeat (split; [reflexivity|]). lia.
Qed.
Lemma no_later : forall p k x, forallb (fun j => negb (spansb p j x)) (seq (S k) (List.length (body p))) = true ->
  forall j, (k < j)%nat -> ~ spans AsBuilt p j x.
Proof.
  intros p k x H j Hj Hs. apply spansb_spec in Hs.
  assert (j < List.length (body p))%nat as L.
  { unfold spansb in Hs. destruct (nth_error (body p) j) eqn:E; [|discriminate]. apply nth_error_Some. congruence. }
  rewrite forallb_forall in H. specialize (H j). rewrite Hs in H. cbn in H. discriminate H. apply in_seq. lia.
Qed.

(** zero bytes over earlier code: the NOP assembled at address 3 is lost *)
Theorem C27_refuted_zeros : exists file src p o k x code a bs b, program_means src p /\ gaia file src = Ret o /\ exit_code o = 0 /\
  spans AsBuilt p k x /\ (forall j, (k < j)%nat -> ~ spans AsBuilt p j x) /\
  reference AsBuilt p = Some code /\ nth_error code (instr_number p k) = Some (a, bs) /\
  nth_error bs (Z.to_nat (x - a)) = Some b /\ nth_error (binary o) (Z.to_nat x) <> Some b.
Proof.
  set (lines := [T " NOP"; T ".ORG 3"; T " NOP"; T " NOP"; T " NOP"; T ".ORG 0"; T " BRK"; T " NOP"; T " NOP"; T ".ORG 6"; T " JMP FWD"; T "FWD NOP"]).
  exists (T "a.asm"), (join lines). destruct (statements lines) as [p|] eqn:E; [|vm_compute in E; discriminate].
  destruct (program_check lines p ltac:(vm_compute; reflexivity) E) as (_ & _ & M).
  vm_compute in E. injection E as <-.
  eexists _, _, 2%nat, 3, _, _, _, _. split; [exact M|]. split; [vm_compute; reflexivity|]. split; [reflexivity|].
  split; [apply spansb_spec; vm_compute; reflexivity|]. split; [apply no_later; vm_compute; reflexivity|].
  split; [vm_compute; reflexivity|]. split; [vm_compute; reflexivity|]. split; [vm_compute; reflexivity|].
  vm_compute. discriminate.
Qed.

(** the operand of a forward reference, completed at the end, over later code: the NOP
    assembled at address 0 is lost *)
Theorem C27_refuted_patch : exists file src p o k x code a bs b, program_means src p /\ gaia file src = Ret o /\ exit_code o = 0 /\
  spans AsBuilt p k x /\ (forall j, (k < j)%nat -> ~ spans AsBuilt p j x) /\
  reference AsBuilt p = Some code /\ nth_error code (instr_number p k) = Some (a, bs) /\
  nth_error bs (Z.to_nat (x - a)) = Some b /\ nth_error (binary o) (Z.to_nat x) <> Some b.
Proof.
  set (lines := [T " JMP FWD"; T ".ORG 0"; T " NOP"; T "FWD NOP"]).
  exists (T "a.asm"), (join lines). destruct (statements lines) as [p|] eqn:E; [|vm_compute in E; discriminate].
  destruct (program_check lines p ltac:(vm_compute; reflexivity) E) as (_ & _ & M).
  vm_compute in E. injection E as <-.
  eexists _, _, 2%nat, 0, _, _, _, _. split; [exact M|]. split; [vm_compute; reflexivity|]. split; [reflexivity|].
  split; [apply spansb_spec; vm_compute; reflexivity|]. split; [apply no_later; vm_compute; reflexivity|].
  split; [vm_compute; reflexivity|]. split; [vm_compute; reflexivity|]. split; [vm_compute; reflexivity|].
  vm_compute. discriminate.
Qed.

(** ** C29: addresses *)
Theorem C29_refuted : exists file src p o e n v, program_means src p /\ gaia file src = Ret o /\ exit_code o = 0 /\
  0x10000 < Z.of_nat (List.length (binary o)) /\
  labels AsBuilt p = Some e /\ lookup e n = Some v /\ 0xFFFF < v /\
  (* and a jump to that label goes elsewhere *)
  In (SInstr (Some n) "JMP" (ODir (Lab n))) p /\ holds_at (binary o) v [0x4C; 0; 0].
Proof.
  set (lines := [T ".ORG $FFFF"; T " NOP"; T "L JMP L"]).
  exists (T "a.asm"), (join lines). destruct (statements lines) as [p|] eqn:E; [|vm_compute in E; discriminate].
  destruct (program_check lines p ltac:(vm_compute; reflexivity) E) as (_ & _ & M).
  assert (p = [SOrg 65535; SInstr None "NOP" ONone; SInstr (Some (T "L")) "JMP" (ODir (Lab (T "L")))]) as Ep.
  { vm_compute in E. injection E as <-. reflexivity. }
  subst p. clear E.
  destruct (C26_as_built (T "a.asm") _ _ M) as (o & A & B & C); [unfold small; vm_compute; reflexivity|].
  assert (R : reference AsBuilt [SOrg 65535; SInstr None "NOP" ONone; SInstr (Some (T "L")) "JMP" (ODir (Lab (T "L")))] = Some [(65535, [0xEA]); (65536, [0x4C; 0; 0])]) by (vm_compute; reflexivity).
  specialize (C _ R). assert (Mo : monotone AsBuilt [SOrg 65535; SInstr None "NOP" ONone; SInstr (Some (T "L")) "JMP" (ODir (Lab (T "L")))]) by (vm_compute; repeat split; discriminate).
  specialize (C Mo). assert (Len : image_end [(65535, [0xEA]); (65536, [0x4C; 0; 0])] = 65539) by reflexivity.
  eexists _, o, _, (T "L"), 65536. split; [exact M|]. split; [exact A|]. split; [apply B; eauto|].
  split; [destruct C as [-> _]; rewrite Len; lia|]. split; [vm_compute; reflexivity|]. split; [vm_compute; reflexivity|]. split; [lia|].
  split; [right; right; left; reflexivity|].
  eapply (image_holds _ _ _ _ [(65535, [0xEA])] []); [exact C|lia|reflexivity|]. intros; reflexivity.
Qed.

(** the addresses are bounded by the size of the program *)
Theorem C29_bound_partial : forall file src p o, program_means src p -> small src ->
  gaia file src = Ret o -> exit_code o = 0 ->
  let bound := 0xFFFF + 3 * count is_instr (body p) in
  (exists e, labels AsBuilt p = Some e /\ forall n v, lookup e n = Some v -> 0 <= v <= bound) /\
  (forall k a, address AsBuilt p k = Some a -> 0 <= a <= bound) /\
  Z.of_nat (List.length (binary o)) <= bound.
Proof.
  intros file src p o HM HB HG HE bound. destruct (assembled _ _ _ _ HM HB HG HE) as (st & code & A & R & P & C & _ & W & _).
  pose proof (program_16 _ _ HM) as S16.
  destruct (program_bounds _ _ _ S16 P) as [_ Bl].
  assert (Sub : forall k, Forall stmt16 (firstn k (body p))).
  { intro k. apply Forall_forall. intros s Hs. rewrite Forall_forall in S16. apply S16.
    assert (In s (body p)) as Hb by (rewrite <- (firstn_skipn k (body p)); apply in_or_app; auto). clear - Hb.
    induction p as [|x p IH]; [destruct Hb|]. destruct x; cbn [body] in Hb; try destruct Hb as [<- |Hb];
      try (left; reflexivity); try (right; apply IH; exact Hb). destruct Hb. }
  assert (Ba : forall k a, address AsBuilt p k = Some a -> 0 <= a <= 65535 + 3 * count is_instr (firstn k (body p))).
  { intros k a H. unfold address in H. destruct (pass1_program AsBuilt (firstn k (body p))) as [s|] eqn:E; [|discriminate].
    injection H as <-. destruct (program_bounds _ _ _ (Sub k) E) as [Q _].
    rewrite body_id in Q; [exact Q|]. intro K. apply (body_no_end p). rewrite <- (firstn_skipn k (body p)). apply in_or_app; auto. }
  assert (Cn : forall k, count is_instr (firstn k (body p)) <= count is_instr (body p)).
  { intro k. rewrite <- (firstn_skipn k (body p)) at 2. unfold count. rewrite filter_app, app_length. lia. }
  split; [|split].
  - exists (d_env st). unfold labels. rewrite P. split; [reflexivity|exact Bl].
  - intros k a H. specialize (Ba k a H). specialize (Cn k). lia.
  - destruct W as [-> _].
    destruct (good_done p st code A S16) as (G & F & _).
    assert (En : forall i q, nth_error (d_done st) i = Some q -> pl_end q <= 65535 + 3 * (1 + Z.of_nat i) /\ it_size (pl_item q) <= 3 /\ 0 <= it_addr (pl_item q)).
    { intros i q Hi. destruct (placed_index p st code A i q Hi) as (k & s & K1 & K2 & K3).
      destruct (placed_at p st code A k s K1 K2) as (q' & N' & _ & _ & Ad1 & Ad2). rewrite K3, Hi in N'. injection N' as <-.
      pose proof (Ba _ _ Ad2) as B2. rewrite (count_firstn _ _ _ K1), K2 in B2.
      assert (Z.of_nat i = count is_instr (firstn k (body p))) as -> by (rewrite <- K3; unfold instr_number, count; lia).
      split; [lia|]. split; [|apply (Ba _ _ Ad1)].
      destruct s as [| | | | |lab m op]; try discriminate.
      destruct (address_next _ _ _ _ _ _ _ P K1) as (a & e & md & opc & size & A1 & _ & _ & A4 & A5).
      rewrite Ad1 in A1. injection A1 as <-. rewrite Ad2 in A5. injection A5 as A5. unfold pl_end in A5.
      destruct (has_mode_bytes _ _ _ _ _ _ A4) as [Sz _].
      assert (size <= 3) by (rewrite Sz; destruct (narrow md), (wide md); lia). lia. }
    assert (Nd : Z.of_nat (List.length (d_done st)) = count is_instr (body p)) by (rewrite (done_length p st code A); reflexivity).
    assert (Bd : 0 <= bound) by (unfold bound, count; lia).
    apply (image_end_le _ _ Bd). unfold writes. apply Forall_app. split.
    + (* first writes *)
      assert (Q : forall l z n0, Forall good_placed l -> z <= 65535 + 3 * n0 ->
        (forall i q, nth_error l i = Some q -> pl_end q <= 65535 + 3 * (1 + n0 + Z.of_nat i) /\ it_size (pl_item q) <= 3) ->
        n0 + zlen l <= count is_instr (body p) ->
        Forall (fun w => fst w + zlen (snd w) <= bound) (first_writes z l)).
      { clear - Bd. induction l as [|q l IH]; intros z n0 G Hz Hl Hn; [constructor|].
        inversion G as [|? ? (G1 & G2 & G3 & G4) G']; subst. cbn [first_writes]. rewrite zlen_cons in Hn.
        destruct (Hl 0%nat q eq_refl) as [L1 L2]. apply Forall_app. split.
        - assert (0 <= zlen l) by (unfold zlen; lia). unfold pl_end in L1. unfold bound.
          destruct (pl_bytes q) as [bs|].
          + constructor; [|constructor]. cbn [fst snd]. rewrite zlen_cons. destruct G4 as [_ G4]. lia.
          + constructor; [|constructor; [|constructor]]; cbn [fst snd]; rewrite ?zlen_cons, zlen_zeros by lia; lia.
        - apply (IH (pl_end q) (n0 + 1)); [exact G'|lia| |lia].
          intros i q' Hi. destruct (Hl (S i) q' Hi) as [K1 K2]. lia. }
      apply (Q (d_done st) 0 0); [exact G|lia| |unfold zlen; lia].
      intros i q Hi. destruct (En i q Hi) as (K1 & K2 & _). split; [lia|exact K2].
    + assert (Q : forall l, Forall (fun q => exists bs, final_bytes (d_env st) q bs) l ->
        (forall q, In q l -> pl_end q <= bound) -> Forall (fun w => fst w + zlen (snd w) <= bound) (last_writes AsBuilt (d_env st) l)).
      { clear. intros l F. induction F as [|q l (bs & Hb & Hs) F IH]; intro H; [constructor|]. cbn [last_writes].
        apply Forall_app. split; [|apply IH; intros; apply H; right; assumption].
        specialize (H q (or_introl eq_refl)). unfold pl_end in H.
        destruct (pl_bytes q); [constructor|]. rewrite Hb. constructor; [|constructor]. cbn [fst snd]. rewrite zlen_cons. lia. }
      apply Q; [exact F|]. intros q Hq. destruct (In_nth_error _ _ Hq) as (i & Hi). destruct (En i q Hi) as (K1 & _).
      assert (i < List.length (d_done st))%nat by (apply nth_error_Some; congruence). unfold bound. lia.
Qed.

(** ** C18: a label that is not a constant denotes the address of the next instruction *)
Lemma address_same : forall p fin i s, pass1_program AsBuilt p = Some fin -> nth_error (body p) i = Some s ->
  is_instr s = false -> (forall v, s <> SOrg v) -> address AsBuilt p (S i) = address AsBuilt p i.
Proof.
  intros p fin i s P H I O. destruct (pass1_at _ _ _ _ _ H P) as (st & st' & E1 & E2 & _).
  unfold address. rewrite (firstn_next _ _ _ _ H). destruct (body_split _ _ _ H) as (_ & N & Ns).
  unfold pass1_program in *. rewrite pass1_app, E1 by exact N. rewrite pass1_cons by exact Ns. rewrite E2. cbn [pass1 option_map].
  f_equal. destruct s as [|n|n v|v| |lab m o]; try discriminate; cbn [pass1_stmt] in E2; try congruence;
    try (apply define_some in E2; destruct E2 as [_ ->]; reflexivity).
Qed.

Theorem C18_next_code : forall file src p o k s n j lab m op, program_means src p -> small src ->
  gaia file src = Ret o -> exit_code o = 0 ->
  nth_error (body p) k = Some s -> defines s = Some n -> (forall l v, s <> SConst l v) ->
  nth_error (body p) j = Some (SInstr lab m op) -> (k <= j)%nat ->
  (forall i s', (k <= i < j)%nat -> nth_error (body p) i = Some s' -> is_instr s' = false /\ forall v, s' <> SOrg v) ->
  exists code e v bs, reference AsBuilt p = Some code /\ labels AsBuilt p = Some e /\ lookup e n = Some v /\
    nth_error code (instr_number p j) = Some (v, bs).
Proof.
  intros file src p o k s n j lab m op HM HB HG HE Hk Dn Nc Hj Hkj Hi.
  destruct (assembled _ _ _ _ HM HB HG HE) as (st & code & A & R & P & _).
  destruct (instr_piece _ _ _ _ _ _ _ R Hj) as (a & e & fin & md & opc & size & bs & E1 & E2 & E3 & Ex & D & H & En & N).
  destruct (pass1_label AsBuilt p k s n _ Hk Dn P) as (b & B1 & B2).
  assert (Hs : match s with SConst _ v => v | _ => b end = b) by (destruct s; try reflexivity; exfalso; eapply Nc; reflexivity).
  rewrite Hs in B2.
  assert (Q : forall d, (k + d <= j)%nat -> address AsBuilt p (k + d) = Some b).
  { induction d as [|d IH]; intro L; [rewrite Nat.add_0_r; exact B1|].
    rewrite Nat.add_succ_r. destruct (nth_error (body p) (k + d)) as [s'|] eqn:Es.
    - destruct (Hi (k + d)%nat s') as [I1 I2]; [lia|exact Es|]. rewrite (address_same _ _ _ _ P Es I1 I2). apply IH. lia.
    - exfalso. apply nth_error_None in Es. assert (j < List.length (body p))%nat by (apply nth_error_Some; congruence). lia. }
  specialize (Q (j - k)%nat). replace (k + (j - k))%nat with j in Q by lia. rewrite E1 in Q. injection Q as ->; [|lia].
  exists code, fin, b, (opc :: bs). do 2 (split; [assumption|]). split; [|exact N].
  unfold labels in E3. rewrite P in E3. injection E3 as <-. exact B2.
Qed.

(** ** The hypotheses are met: the program of Proof_Check.v, which has a forward reference
    (JSR), branches, labels and two origins *)
Definition forwardb (p : list stmt) (k : nat) : bool :=
  match nth_error (body p) k, address AsBuilt p k, labels_at AsBuilt p k with
  | Some (SInstr lab _ o), Some a, Some e => unresolved (with_own lab a e) o
  | _, _, _ => false
  end.
Lemma forwardb_ok : forall p k, forwardb p k = true -> forward AsBuilt p k.
Proof.
  intros p k H. unfold forwardb in H. destruct (nth_error (body p) k) as [[]|] eqn:E; try discriminate.
  destruct (address AsBuilt p k) as [a|] eqn:A; [|discriminate]. destruct (labels_at AsBuilt p k) as [e|] eqn:L; [|discriminate].
  unfold forward. do 5 eexists. repeat (split; [eassumption|]). exact H.
Qed.

Example code_example : exists o, program_means (join demo) demo_stmts /\ small (join demo) /\
  gaia (T "a.asm") (join demo) = Ret o /\ exit_code o = 0 /\ monotone AsBuilt demo_stmts /\
  (exists k, forward AsBuilt demo_stmts k) /\
  exists k m n, nth_error (body demo_stmts) k = Some (SInstr None m (ODir (Lab n))).
Proof.
  destruct demo_ok as (A & B & _). destruct (program_check _ _ B A) as (_ & _ & M).
  assert (S : small (join demo)) by (unfold small; vm_compute; reflexivity).
  destruct (C26_as_built (T "a.asm") _ _ M S) as (o & E & X & _).
  exists o. split; [exact M|]. split; [exact S|]. split; [exact E|]. split; [apply X; eexists; vm_compute; reflexivity|].
  split; [vm_compute; repeat split; discriminate|].
  split; [|exists 5%nat; do 2 eexists; vm_compute; reflexivity].
  assert (K : existsb (forwardb demo_stmts) (seq 0 20) = true) by (vm_compute; reflexivity).
  apply existsb_exists in K. destruct K as (k & _ & K). exists k. apply forwardb_ok. exact K.
Qed.
