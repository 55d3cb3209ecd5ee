(** Prop_Data.v -- C94: data in the binary. *)
From Verif Require Import Base Proof_Base Model_Main Spec_Isa Spec_Text Spec_Asm Spec_Diag Spec_Prog Spec_Bytes Spec_Listing Spec_Write Spec_Data
  Proof_Core Proof_Diag Proof_Modes Proof_Ref Proof_Image Proof_Prog Proof_Check Proof_Listing Prop_Program Prop_Code Prop_Listing Prop_Move Prop_Write Prop_Bytes.

Local Notation pass2 := (Spec_Asm.pass2 AsBuilt).

(** the pieces of code of the data *)
Fixpoint data_code (a : Z) (ds : list Z) : list (Z * list Z) :=
  match ds with [] => [] | d :: ds' => data_code (a + 1) ds' ++ [(a - 1, [0xA9; d])] end.

Lemma data_no_end : forall ds a, ~ In SEnd (data_at a ds).
Proof.
  induction ds as [|d ds IH]; intros a I; [exact I|]. cbn [data_at] in I. apply in_app_iff in I. destruct I as [I|[I|[I|[]]]]; [exact (IH _ I)|discriminate|discriminate].
Qed.

Lemma decode_lda : decode 0xA9 = Some ("LDA"%string, IMM, 2).
Proof. vm_compute. reflexivity. Qed.

Lemma data_pass : forall ds a st, Forall (fun b => 0 <= b < 256) ds -> exists x its, pass1 AsBuilt st (data_at a ds) = Some (mkP1 x (p1_env st) (p1_items st ++ its)) /\
  forall e, pass2 e its = Some (data_code a ds).
Proof.
  induction ds as [|d ds IH]; intros a st F.
  { exists (p1_addr st), []. cbn. rewrite app_nil_r. destruct st. auto. }
  inversion F as [|? ? F1 F2]; subst. destruct (IH (a + 1) st F2) as (x & its & P & Q).
  assert (IL : exists line, instruction_line 0xA9 [d] = Some line).
  { unfold instruction_line. rewrite decode_lda. cbn [unwritable forallb]. unfold isbyte. rewrite (proj2 (Z.leb_le 0 d)), (proj2 (Z.ltb_lt d 256)) by lia. cbn. eauto. }
  destruct IL as (line & IL).
  destruct (assembles_listing _ _ _ _ _ _ decode_lda IL (mkP1 (a - 1) (p1_env st) (p1_items st ++ its))) as (it & P1 & Ia & Io & En). cbn [p1_addr p1_env p1_items operand_for] in *.
  exists (a - 1 + 2), (its ++ [it]). cbn [data_at data_code]. rewrite pass1_app by apply data_no_end. rewrite P. cbn [pass1 pass1_stmt p1_env p1_items].
  rewrite P1. rewrite app_assoc. split; [reflexivity|]. intro e. rewrite pass2_app, Q. cbn [Spec_Asm.pass2]. rewrite En, Ia, Io. reflexivity.
Qed.

Lemma data_end : forall ds a, 1 <= a -> image_end (data_code a ds) = match ds with [] => 0 | _ => a + Z.of_nat (List.length ds) end.
Proof.
  induction ds as [|d ds IH]; intros a A; [reflexivity|]. cbn [data_code]. rewrite image_end_app, IH by lia. cbn [image_end List.length]. destruct ds; cbn [List.length]; lia.
Qed.

Lemma data_byte : forall ds a x, a <= x -> byte_at (data_code a ds) x = nth_error ds (Z.to_nat (x - a)).
Proof.
  induction ds as [|d ds IH]; intros a x H; [destruct (Z.to_nat (x - a)); reflexivity|]. cbn [data_code]. rewrite byte_at_app. cbn [byte_at List.length].
  rewrite (proj2 (Z.leb_le (a - 1) x)) by lia. destruct (Z.ltb_spec x (a - 1 + Z.of_nat 2)) as [L|L]; cbn [andb].
  - assert (x = a) by lia. subst x. replace (Z.to_nat (a - (a - 1))) with 1%nat by lia. replace (Z.to_nat (a - a)) with 0%nat by lia. reflexivity.
  - rewrite IH by lia. replace (Z.to_nat (x - a)) with (S (Z.to_nat (x - (a + 1)))) by lia. reflexivity.
Qed.

Lemma nth_error_ext' : forall (l l' : list Z), (forall i, nth_error l i = nth_error l' i) -> l = l'.
Proof.
  induction l as [|x l IH]; intros [|y l'] H; [reflexivity|discriminate (H 0%nat)|discriminate (H 0%nat)|]. pose proof (H 0%nat) as E. injection E as ->. f_equal.
  apply IH. intro i. exact (H (S i)).
Qed.

Lemma data_image : forall code ps data file, code <> [] -> laid 0 ps code -> is_image (data_code (Z.of_nat (List.length code)) data ++ ps) file -> file = code ++ data.
Proof.
  intros code ps data file N L [E B]. set (n := Z.of_nat (List.length code)) in *.
  assert (Hn : 1 <= n) by (unfold n; destruct code; [congruence|cbn [List.length]; lia]).
  assert (Lp : image_end ps = n). { rewrite (laid_end _ _ _ L) by lia. destruct ps; [inversion L; subst; congruence|lia]. }
  assert (Len : image_end (data_code n data ++ ps) = n + Z.of_nat (List.length data)).
  { rewrite image_end_app, data_end, Lp by lia. destruct data; cbn [List.length]; lia. }
  rewrite Len in *. apply nth_error_ext'. intro i. destruct (Nat.lt_ge_cases i (List.length file)) as [H|H].
  - specialize (B (Z.of_nat i) ltac:(lia)). rewrite Nat2Z.id in B. rewrite B, byte_at_app, (laid_byte _ _ _ L).
    rewrite (proj2 (Z.leb_le 0 (Z.of_nat i))) by lia. rewrite Z.sub_0_r, Nat2Z.id.
    destruct (Nat.lt_ge_cases i (List.length code)) as [K|K].
    + rewrite nth_error_app1 by exact K. destruct (nth_error code i) eqn:X; [reflexivity|]. apply nth_error_None in X. lia.
    + rewrite (proj2 (nth_error_None code i) K), nth_error_app2 by exact K. rewrite data_byte by (unfold n; lia).
      replace (Z.to_nat (Z.of_nat i - n)) with (i - List.length code)%nat by (unfold n; lia).
      destruct (nth_error data (i - List.length code)) eqn:X; [reflexivity|]. apply nth_error_None in X. unfold n in *. lia.
  - rewrite (proj2 (nth_error_None file i)) by lia. symmetry. apply nth_error_None. rewrite app_length. unfold n in *. lia.
Qed.

Lemma data_legal : forall ds a, 1 <= a -> a + Z.of_nat (List.length ds) <= 65537 -> Forall (fun b => 0 <= b < 256) ds ->
  Forall (fun s => legal s /\ (List.length (write s) <= 20)%nat /\ (exists v, s = SOrg v) \/ legal s /\ (List.length (write s) <= 20)%nat /\ exists d, s = SInstr None "LDA" (OImm (Num d))) (data_at a ds).
Proof.
  induction ds as [|d ds IH]; intros a A L F; [constructor|]. inversion F as [|? ? F1 F2]; subst. cbn [List.length] in L. cbn [data_at]. apply Forall_app. split; [apply IH; [lia|lia|exact F2]|].
  assert (L1 : List.length (write (SOrg (a - 1))) = 10%nat) by reflexivity.
  assert (L2 : List.length (write (SInstr None "LDA" (OImm (Num d)))) = 10%nat) by reflexivity.
  constructor; [left|constructor; [right|constructor]].
  - split; [|split; [rewrite L1; lia|eauto]]. split; [rewrite L1; lia|lia].
  - split; [|split; [rewrite L2; lia|eauto]]. split; [rewrite L2; lia|]. split; [intros n E; discriminate E|]. split; [|cbn; lia]. exists IMM, 0xA9, 2. vm_compute. tauto.
Qed.

Lemma join_length : forall p k, Forall (fun s => (List.length (write s) <= k)%nat) p -> (List.length (join (map write p)) <= (k + 1) * List.length p)%nat.
Proof.
  intros p k F. unfold join. induction F as [|s p H F IH]; [cbn; lia|]. cbn [map List.concat List.length]. rewrite !app_length. cbn [List.length]. lia.
Qed.

Lemma data_count : forall ds a, List.length (data_at a ds) = (2 * List.length ds)%nat.
Proof. induction ds as [|d ds IH]; intro a; [reflexivity|]. cbn [data_at List.length]. rewrite app_length, IH. cbn [List.length]. lia. Qed.

Lemma legal_fits : forall s, legal s -> fits (write s).
Proof. intros s H. split; [apply H|]. apply spelled_newline, legal_toks, H. Qed.

(** ** C94.  Any bytes may follow the code *)
Theorem C94_data : forall file code lines data, disassemble code = Some lines -> code <> [] -> Forall (fun b => 0 <= b < 256) data ->
  Z.of_nat (List.length (code ++ data)) <= 0x10001 ->
  exists o, gaia file (with_data code lines data) = Ret o /\ exit_code o = 0 /\ binary o = code ++ data.
Proof.
  intros file code lines data D N F S. destruct (disassemble_ok _ _ _ (le_n _) D) as (q & F2 & Ft & Sh & L & A).
  set (n := Z.of_nat (List.length code)). set (p0 := data_at n data ++ [SOrg 0]). rewrite app_length in S.
  assert (Hn : 1 <= n) by (unfold n; destruct code; [congruence|cbn [List.length]; lia]).
  assert (Lg : Forall (fun s => legal s /\ (List.length (write s) <= 20)%nat) p0).
  { unfold p0. apply Forall_app. split.
    - eapply Forall_impl; [|apply (data_legal data n); [exact Hn|unfold n; lia|exact F]]. cbn beta. tauto.
    - constructor; [|constructor]. assert (L1 : List.length (write (SOrg 0)) = 10%nat) by reflexivity. split; [split; [rewrite L1; lia|lia]|rewrite L1; lia]. }
  assert (PM : program_means (with_data code lines data) (p0 ++ q)).
  { exists (map write p0 ++ lines). split.
    - split; [|left; reflexivity]. apply Forall_app. split; [|exact Ft]. apply Forall_forall. intros x I. apply in_map_iff in I. destruct I as (s & <- & I).
      rewrite Forall_forall in Lg. apply legal_fits, (Lg _ I).
    - apply Forall2_app; [|exact F2]. clear - Lg. induction Lg as [|s p [H _] _ IH]; cbn [map]; constructor; [apply write_means, H|exact IH]. }
  assert (Sm : small (with_data code lines data)).
  { assert (J' : (List.length (join (map write p0)) <= 21 * List.length p0)%nat) by (apply (join_length p0 20); eapply Forall_impl; [|exact Lg]; cbn beta; tauto).
    assert (C : List.length p0 = (2 * List.length data + 1)%nat) by (unfold p0; rewrite app_length, data_count; reflexivity).
    assert (J2 : List.length (with_data code lines data) = (List.length (join (map write p0)) + List.length (join lines))%nat).
    { unfold with_data. fold n. fold p0. unfold join. rewrite map_app, concat_app, app_length. reflexivity. }
    unfold small. rewrite J2. lia. }
  destruct (data_pass data n (mkP1 0 [] []) F) as (x & its & P & Q). cbn [p1_addr p1_env p1_items app] in *.
  destruct (A (mkP1 0 [] its)) as (its' & ps & P' & Q' & R & _). cbn [p1_addr p1_env p1_items app] in *.
  assert (Rf : reference AsBuilt (p0 ++ q) = Some (data_code n data ++ ps)).
  { unfold reference, pass1_program, p0. rewrite <- app_assoc, pass1_app by apply data_no_end. rewrite P. cbn [app pass1 pass1_stmt p1_env p1_items].
    rewrite P'. cbn [p1_env p1_items]. rewrite pass2_app, Q, Q'. reflexivity. }
  destruct (C26_as_built file _ _ PM Sm) as (o & G & E & _). exists o. split; [exact G|]. assert (X : exit_code o = 0) by (apply E; eauto). split; [exact X|].
  assert (NF : no_forward_reference AsBuilt (p0 ++ q)).
  { intros k lab m op a e K _ _. apply nth_error_In in K.
    assert (K' : In (SInstr lab m op) (p0 ++ q)).
    { clear - K. revert K. generalize (p0 ++ q). induction l as [|s l IH]; [intros []|]. cbn [body]. destruct s; cbn [In]; intros; try tauto. }
    apply in_app_iff in K'. destruct K' as [K'|K'].
    - unfold p0 in K'. apply in_app_iff in K'. destruct K' as [K'|[K'|[]]]; [|discriminate].
      pose proof (data_legal data n Hn ltac:(unfold n; lia) F) as W. rewrite Forall_forall in W. destruct (W _ K') as [(_ & _ & v & Y)|(_ & _ & d & Y)]; [discriminate|].
      injection Y as -> -> ->. reflexivity.
    - rewrite Forall_forall in Sh. destruct (Sh _ K') as (m' & md & bs & Y). injection Y as -> -> ->.
      unfold unresolved. destruct md; destruct bs as [|b [|h [|? ?]]]; reflexivity. }
  destruct (C27_no_forward_partial file _ _ o PM Sm G X NF) as (c & Rc & Im). rewrite Rf in Rc. injection Rc as <-.
  exact (data_image code ps data (binary o) N R Im).
Qed.

(** the first byte of a binary is an opcode (or a zero, or the byte the code writes for JMP v,X), so something must stand in
    front of the data *)
Lemma pass1_nonneg : forall p st st', Forall stmt16 p -> 0 <= p1_addr st -> Forall (fun it => 0 <= it_addr it /\ rowed it) (p1_items st) -> pass1 AsBuilt st p = Some st' ->
  Forall (fun it => 0 <= it_addr it /\ rowed it) (p1_items st').
Proof.
  induction p as [|s p IH]; intros st st' S N F H; [injection H as <-; exact F|]. inversion S as [|? ? S1 S2]; subst.
  destruct s as [|n|n v|v| |lab m o]; [| | | |cbn in H; injection H as <-; exact F|]; rewrite pass1_cons in H by discriminate; cbn [pass1_stmt] in H.
  - eapply IH; eauto.
  - destruct (define st n (p1_addr st)) as [st1|] eqn:D; [|discriminate]. apply define_some in D. destruct D as [_ ->]. eapply IH; [exact S2| | |exact H]; assumption.
  - destruct (define st n v) as [st1|] eqn:D; [|discriminate]. apply define_some in D. destruct D as [_ ->]. eapply IH; [exact S2| | |exact H]; assumption.
  - eapply IH; [exact S2| | |exact H]; [cbn in *; lia|exact F].
  - change (match pass1_stmt AsBuilt st (SInstr lab m o) with Some st1 => pass1 AsBuilt st1 p | None => None end = Some st') in H.
    destruct (pass1_stmt AsBuilt st (SInstr lab m o)) as [st1|] eqn:E; [|discriminate].
    destruct (pass1_stmt_instr AsBuilt st lab m o st1 E) as (md & op & size & D & M & Z & ->).
    eapply IH; [exact S2| | |exact H]; cbn [p1_addr p1_items].
    + destruct (has_mode_bytes _ _ _ _ _ _ M) as [Hs _]. destruct (narrow md); [lia|]; destruct (Proof_Modes.wide md); lia.
    + apply Forall_app. split; [exact F|]. constructor; [|constructor]. split; [exact N|].
      unfold rowed. cbn [it_name it_mode it_opcode]. unfold has_mode in M. destruct (listed m md) as [[o1 s1]|] eqn:L.
      * left. injection M as <- <-. eauto.
      * right. destruct md; try discriminate; destruct (String.eqb m "JMP" && _); try discriminate; injection M as <- <-; reflexivity.
Qed.

Lemma code_head : forall e its code, Forall (fun it => 0 <= it_addr it /\ rowed it) its -> pass2 e its = Some code ->
  Forall (fun w => 0 <= fst w /\ exists op bs, snd w = op :: bs /\ (op = 0xF3 \/ exists name md, documented name md op)) code.
Proof.
  intros e its code F. revert code. induction F as [|it its [A R] F IH]; intros code H; cbn [Spec_Asm.pass2] in H; [injection H as <-; constructor|].
  destruct (encode_operand AsBuilt e it) as [bs|]; [|discriminate]. destruct (pass2 e its) as [l|]; [|discriminate]. injection H as <-.
  constructor; [|apply IH; reflexivity]. split; [exact A|]. exists (it_opcode it), bs. split; [reflexivity|]. destruct R as [[n R]|R]; [right|left; exact R].
  exists (it_name it), (it_mode it), n. apply Proof_Opcode.listed_in. exact R.
Qed.

Theorem C94_first : forall file src p o b, program_means src p -> small src -> gaia file src = Ret o -> exit_code o = 0 ->
  nth_error (binary o) 0 = Some b -> b = 0 \/ b = 0xF3 \/ exists name md, documented name md b.
Proof.
  intros file src p o b M B G X H. destruct (success file src p o M B G X) as (fin & code & P & Q & _ & _).
  assert (R : reference AsBuilt p = Some code) by (unfold reference; rewrite P; exact Q).
  pose proof (pass1_nonneg p (mkP1 0 [] []) fin (program_16 _ _ M) (Z.le_refl 0) (Forall_nil _) P) as F. pose proof (code_head _ _ _ F Q) as C.
  assert (L : 0 <= 0 < Z.of_nat (List.length (binary o))) by (destruct (binary o); [discriminate H|cbn [List.length]; lia]).
  pose proof (proj1 (C88_bytes file src p o code 0 b M B G X R L) H) as K.
  assert (By : forall k, byte_of p code k 0 b -> b = 0 \/ b = 0xF3 \/ exists name md, documented name md b).
  { intros k (a & bs & I & J). apply nth_error_In in I. rewrite Forall_forall in C. destruct (C _ I) as (A & op & bs' & E & O). cbn [fst snd] in A, E. subst bs.
    replace (Z.to_nat (0 - a)) with 0%nat in J by lia. cbn [nth_error] in J. injection J as <-. auto. }
  destruct K as [k b _ _ _ K|k b _ _ _ K|k _ _ _|_]; [exact (By k K)|exact (By k K)|auto|auto].
Qed.

(** the hypotheses are met: a jump over a text, which is no machine code *)
Example C94_case : exists lines o, disassemble [0x4C; 0x0A; 0] = Some lines /\
  disassemble [0x4C; 0x0A; 0; 0xFF; 0x48; 0x65; 0x6C; 0x6C; 0x6F; 0] = None /\
  gaia (T "a.asm") (with_data [0x4C; 0x0A; 0] lines [0xFF; 0x48; 0x65; 0x6C; 0x6C; 0x6F; 0]) = Ret o /\ exit_code o = 0 /\
  binary o = [0x4C; 0x0A; 0; 0xFF; 0x48; 0x65; 0x6C; 0x6C; 0x6F; 0].
Proof.
  do 2 eexists. split; [vm_compute; reflexivity|]. split; [vm_compute; reflexivity|]. split; [vm_compute; reflexivity|]. split; reflexivity.
Qed.

(** the hypotheses of C94_first are met by a program whose first byte is the one of JMP v,X, which is no instruction *)
Example C94_first_case : exists src p o, program_means src p /\ small src /\ gaia (T "a.asm") src = Ret o /\ exit_code o = 0 /\ nth_error (binary o) 0 = Some 0xF3 /\
  forall name md, ~ documented name md 0xF3.
Proof.
  set (lines := [T " JMP FWD,X"; T "FWD NOP"]).
  exists (join lines). destruct (statements lines) as [p|] eqn:E; [|vm_compute in E; discriminate].
  destruct (program_check lines p ltac:(vm_compute; reflexivity) E) as (_ & _ & M).
  vm_compute in E. injection E as <-.
  eexists _, _. split; [exact M|]. split; [vm_compute; reflexivity|]. split; [vm_compute; reflexivity|]. split; [reflexivity|]. split; [reflexivity|].
  intros name md (bytes & H).
  assert (F : forallb (fun '(_, _, op, _) => negb (op =? 0xF3)) table = true) by (vm_compute; reflexivity).
  rewrite forallb_forall in F. specialize (F _ H). discriminate.
Qed.
