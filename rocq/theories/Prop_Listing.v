(** Prop_Listing.v -- C65: machine code, disassembled and assembled again; C66: the instructions that can be written. *)
From Verif Require Import Base Proof_Base Model_Main Spec_Isa Spec_Text Spec_Asm Spec_Diag Spec_Prog Proof_Check Proof_Prog
  Prop_Program Spec_Listing Proof_Listing.

(** pieces of code one after the other, from address [a] on *)
Inductive laid : Z -> list (Z * list Z) -> list Z -> Prop :=
| laid_nil a : laid a [] []
| laid_cons a bs ps rest : laid (a + Z.of_nat (List.length bs)) ps rest -> laid a ((a, bs) :: ps) (bs ++ rest).

Lemma laid_end : forall a ps bytes, laid a ps bytes -> 0 <= a -> image_end ps = if match ps with [] => true | _ => false end then 0 else a + Z.of_nat (List.length bytes).
Proof.
  intros a ps bytes H. induction H as [a|a bs ps rest H IH]; intro P; [reflexivity|].
  cbn [image_end]. rewrite IH by lia. rewrite app_length. destruct ps; [|lia]. inversion H. subst. cbn. lia.
Qed.

Lemma laid_byte : forall a ps bytes, laid a ps bytes -> forall x,
  byte_at ps x = if a <=? x then nth_error bytes (Z.to_nat (x - a)) else None.
Proof.
  intros a ps bytes H. induction H as [a|a bs ps rest H IH]; intro x.
  - cbn. destruct (a <=? x); [|reflexivity]. destruct (Z.to_nat (x - a)); reflexivity.
  - cbn [byte_at]. rewrite IH. set (n := Z.of_nat (List.length bs)). assert (Hn : 0 <= n) by (unfold n; lia).
    destruct (Z.leb_spec (a + n) x) as [L|L].
    + rewrite (proj2 (Z.leb_le a x)) by lia. rewrite (proj2 (Z.ltb_ge x (a + n))) by lia. cbn [andb].
      rewrite nth_error_app2 by (unfold n in L; lia). replace (Z.to_nat (x - a) - List.length bs)%nat with (Z.to_nat (x - (a + n))) by (unfold n; lia).
      destruct (nth_error rest (Z.to_nat (x - (a + n)))); reflexivity.
    + rewrite (proj2 (Z.ltb_lt x (a + n))) by lia. rewrite andb_true_r. destruct (Z.leb_spec a x); [|reflexivity].
      rewrite nth_error_app1 by (unfold n in L; lia). reflexivity.
Qed.

Lemma laid_image : forall ps bytes file, laid 0 ps bytes -> is_image ps file -> file = bytes.
Proof.
  intros ps bytes file H [L B]. rewrite (laid_end _ _ _ H) in * by lia.
  destruct ps as [|p ps]. { inversion H. subst. destruct file; [reflexivity|]. cbn in L. lia. }
  rewrite Z.add_0_l in *. assert (E : List.length file = List.length bytes) by lia.
  apply nth_ext with (d := 0) (d' := 0); [exact E|]. intros n Hn.
  specialize (B (Z.of_nat n) ltac:(lia)). rewrite Nat2Z.id in B. rewrite (nth_error_nth _ _ _ B).
  rewrite (laid_byte _ _ _ H), (proj2 (Z.leb_le 0 (Z.of_nat n))) by lia. rewrite Z.sub_0_r, Nat2Z.id.
  destruct (nth_error bytes n) as [b|] eqn:K; [symmetry; apply nth_error_nth; exact K|]. apply nth_error_None in K. lia.
Qed.

(** what the lines of the disassembler mean *)
Definition listing_ok (bytes : list Z) (lines : list text) : Prop :=
  exists p, Forall2 line_means lines p /\ Forall fits lines /\
    Forall (fun s => exists m md bs, s = SInstr None m (operand_for md bs)) p /\
    (List.length (join lines) <= 12 * List.length bytes)%nat /\
    forall st, exists its ps, pass1 AsBuilt st p = Some (mkP1 (p1_addr st + Z.of_nat (List.length bytes)) (p1_env st) (p1_items st ++ its)) /\
      (forall e, pass2 AsBuilt e its = Some ps) /\ laid (p1_addr st) ps bytes /\ monotone_from AsBuilt st p.

Lemma listing_step : forall op bs line m md n rest lines, decode op = Some (m, md, n) -> instruction_line op bs = Some line ->
  listing_ok rest lines -> listing_ok (op :: bs ++ rest) (line :: lines).
Proof.
  intros op bs line m md n rest lines D L (p & F & Ft & Sh & Ln & A).
  destruct (line_listing _ _ _ _ _ _ D L) as (M & Fl & Len & Hn & _ & _).
  exists (SInstr None m (operand_for md bs) :: p). split; [constructor; assumption|]. split; [constructor; assumption|]. split; [constructor; [eauto|exact Sh]|]. split.
  { unfold join. cbn [map List.concat]. fold (join lines). rewrite !app_length. cbn [List.length]. rewrite app_length. lia. }
  intro st. destruct (assembles_listing _ _ _ _ _ _ D L st) as (it & P1 & Ia & Io & En).
  destruct (A (mkP1 (p1_addr st + n) (p1_env st) (p1_items st ++ [it]))) as (its & ps & P & Q & R & Mo). cbn [p1_addr p1_env p1_items] in *.
  exists (it :: its), ((p1_addr st, op :: bs) :: ps). split; [|split; [|split]].
  - cbn [pass1 pass1_stmt]. rewrite P1, P. f_equal. f_equal; [|rewrite <- app_assoc; reflexivity].
    cbn [List.length]. rewrite app_length. lia.
  - intro e. cbn [pass2]. rewrite En, Q, Ia, Io. reflexivity.
  - change (op :: bs ++ rest) with ((op :: bs) ++ rest). constructor.
    replace (p1_addr st + Z.of_nat (List.length (op :: bs))) with (p1_addr st + n) by (cbn [List.length]; lia). exact R.
  - cbn [monotone_from pass1_stmt]. rewrite P1. auto.
Qed.

Lemma disassemble_ok : forall k bytes lines, (List.length bytes <= k)%nat -> disassemble bytes = Some lines -> listing_ok bytes lines.
Proof.
  induction k as [|k IH]; intros bytes lines L H.
  { destruct bytes; [|cbn in L; lia]. cbn in H. injection H as <-. exists []. split; [constructor|]. split; [constructor|]. split; [constructor|]. split; [cbn; lia|].
    intro st. exists [], []. cbn. destruct st as [a e i]. cbn. rewrite Z.add_0_r, app_nil_r. repeat split. constructor. }
  destruct bytes as [|op rest].
  { cbn in H. injection H as <-. exists []. split; [constructor|]. split; [constructor|]. split; [constructor|]. split; [cbn; lia|].
    intro st. exists [], []. cbn. destruct st as [a e i]. cbn. rewrite Z.add_0_r, app_nil_r. repeat split. constructor. }
  cbn [List.length] in L. cbn [disassemble] in H. destruct (decode op) as [[[m md] n]|] eqn:D; [|discriminate].
  assert (C : forall bs rest', rest = bs ++ rest' -> cons_line (instruction_line op bs) (disassemble rest') = Some lines -> listing_ok (op :: rest) lines).
  { intros bs rest' -> K. unfold cons_line in K. destruct (instruction_line op bs) as [line|] eqn:I; [|discriminate].
    destruct (disassemble rest') as [lines'|] eqn:E; [|discriminate]. injection K as <-.
    eapply listing_step; [exact D|exact I|]. apply IH; [|exact E]. rewrite app_length in L. lia. }
  destruct n as [|q|q]; try discriminate. destruct q as [q|q|]; [|destruct q; try discriminate|].
  - destruct q; try discriminate. destruct rest as [|l [|h rest']]; try discriminate. apply (C [l; h] rest'); [reflexivity|exact H].
  - destruct rest as [|b rest']; [discriminate|]. apply (C [b] rest'); [reflexivity|exact H].
  - apply (C [] rest); [reflexivity|exact H].
Qed.

(** ** C65.  Machine code that the disassembler can write comes back unchanged *)
Theorem C65_round_trip : forall file bytes lines, disassemble bytes = Some lines -> Z.of_nat (List.length bytes) <= 1000000 ->
  exists o, gaia file (join lines) = Ret o /\ exit_code o = 0 /\ binary o = bytes.
Proof.
  intros file bytes lines H S. destruct (disassemble_ok _ _ _ (le_n _) H) as (p & F & Ft & _ & L & A).
  assert (PM : program_means (join lines) p) by (exists lines; split; [split; [exact Ft|left; reflexivity]|exact F]).
  assert (Sm : small (join lines)) by (unfold small; lia).
  destruct (A (mkP1 0 [] [])) as (its & ps & P & Q & R & M). cbn [p1_addr p1_env p1_items app] in *.
  assert (Rf : reference AsBuilt p = Some ps) by (unfold reference, pass1_program; rewrite P; apply Q).
  destruct (C26_as_built file _ p PM Sm) as (o & G & E & I). exists o. split; [exact G|]. split; [apply E; eauto|].
  eapply laid_image; [exact R|]. apply I; [exact Rf|exact M].
Qed.

Example C65_example : exists lines, disassemble example_code = Some lines /\ Z.of_nat (List.length example_code) <= 1000000 /\ List.length lines = 8%nat.
Proof. eexists. split; [apply disassemble_example|]. split; [vm_compute; discriminate|reflexivity]. Qed.

(** ** C66.  What cannot be written *)
(** no label has a value above $FFFF *)
Definition labels16 (e : env) : Prop := forall n v, lookup e n = Some v -> v <= 0xFFFF.

(** an item of the reference assembler in an absolute mode has an operand above $FF *)
Definition wide (e : env) (it : item) : Prop :=
  absolute (it_mode it) = true -> is_jump_name (it_name it) = false ->
  exists x v, it_expr it = Some x /\ eval e x = Some v /\ 255 < v /\ match x with Num w => w <= 0xFFFF | _ => True end.

(** an item has a row of the table, or the opcode $F3 *)
Definition rowed (it : item) : Prop := (exists n, listed (it_name it) (it_mode it) = Some (it_opcode it, n)) \/ it_opcode it = 0xF3.

Lemma wide_define : forall e n v it, lookup e n = None -> wide e it -> wide ((n, v) :: e) it.
Proof.
  intros e n v it L W A J. destruct (W A J) as (x & w & E & Ev & B & N). exists x, w. split; [exact E|]. split; [|auto].
  destruct x as [u|k]; [exact Ev|]. cbn [eval lookup] in *. destruct (text_eqb n k) eqn:K; [|exact Ev].
  apply text_eqb_eq in K. subst k. congruence.
Qed.

Lemma instr_wide : forall st m o st', match operand_expr o with Some (Num w) => w <= 0xFFFF | _ => True end ->
  pass1_instr AsBuilt st m o = Some st' -> Forall (fun it => wide (p1_env st) it /\ rowed it) (p1_items st) ->
  Forall (fun it => wide (p1_env st') it /\ rowed it) (p1_items st').
Proof.
  intros st m o st' N H F. unfold pass1_instr in H.
  destruct (denoted_mode m o _) as [md|] eqn:D; [|discriminate].
  destruct (has_mode AsBuilt m md _) as [[op size]|] eqn:M; [|discriminate]. injection H as <-. cbn [p1_env p1_items].
  apply Forall_app. split; [exact F|]. constructor; [|constructor]. split.
  - intros A J. cbn [it_mode it_name it_expr] in *. unfold denoted_mode in D. destruct (is_branch_name m).
    { destruct o; try discriminate; injection D as <-; discriminate. }
    rewrite J in D. destruct o as [| |x|x|x|x|x|x|x]; cbn [operand_expr] in *.
    { injection D as D. subst md. match type of A with absolute (if ?c then _ else _) = _ => destruct c; discriminate A end. }
    { injection D as D. subst md. discriminate A. }
    all: destruct (eval (p1_env st) x) as [v|] eqn:E; try discriminate;
      try (destruct (v <=? 255); try discriminate; injection D as <-; discriminate);
      try (destruct (255 <? v); try discriminate; injection D as <-; discriminate);
      (exists x, v; split; [reflexivity|]; split; [exact E|]; split; [|destruct x; auto];
       unfold by_size in D; destruct (Z.leb_spec v 255); [injection D as <-; discriminate|lia]).
  - unfold rowed. cbn [it_name it_mode it_opcode]. unfold has_mode in M. destruct (listed m md) as [[o1 s1]|] eqn:L.
    + left. injection M as <- <-. eauto.
    + right. destruct md; try discriminate; destruct (String.eqb m "JMP" && _); try discriminate; injection M as <- <-; reflexivity.
Qed.

Lemma pass1_wide : forall p st st', Forall stmt16 p -> pass1 AsBuilt st p = Some st' ->
  Forall (fun it => wide (p1_env st) it /\ rowed it) (p1_items st) -> Forall (fun it => wide (p1_env st') it /\ rowed it) (p1_items st').
Proof.
  assert (Df : forall st n v st', define st n v = Some st' -> Forall (fun it => wide (p1_env st) it /\ rowed it) (p1_items st) ->
    Forall (fun it => wide (p1_env st') it /\ rowed it) (p1_items st')).
  { intros st n v st' H F. unfold define in H. destruct (lookup (p1_env st) n) eqn:L; [discriminate|]. injection H as <-. cbn [p1_env p1_items].
    eapply Forall_impl; [|exact F]. intros it [W R]. split; [apply wide_define; assumption|exact R]. }
  induction p as [|s p IH]; intros st st' S H F; [injection H as <-; exact F|]. inversion S as [|? ? S1 S2]; subst.
  assert (K : s <> SEnd -> pass1 AsBuilt st (s :: p) = match pass1_stmt AsBuilt st s with Some st1 => pass1 AsBuilt st1 p | None => None end)
    by (intro N; destruct s; congruence || reflexivity).
  assert (N16 : forall lab m o, s = SInstr lab m o -> match operand_expr o with Some (Num w) => w <= 0xFFFF | _ => True end).
  { intros lab m o ->. destruct S1 as [_ S1]. destruct (operand_expr o) as [[w|n]|]; auto. cbn in S1. lia. }
  destruct s as [|n|n v|v| |lab m o]; [| | | |cbn in H; injection H as <-; exact F|];
    rewrite K in H by discriminate; cbn [pass1_stmt] in H.
  - eapply IH; eauto.
  - destruct (define st n (p1_addr st)) as [st1|] eqn:D; [|discriminate]. eapply IH; eauto.
  - destruct (define st n v) as [st1|] eqn:D; [|discriminate]. eapply IH; eauto.
  - eapply IH; [exact S2|exact H|exact F].
  - destruct lab as [n|].
    + destruct (define st n (p1_addr st)) as [st1|] eqn:D; [|discriminate].
      destruct (pass1_instr AsBuilt st1 m o) as [st2|] eqn:P; [|discriminate]. eapply IH; [exact S2|exact H|].
      eapply instr_wide; [exact (N16 _ _ _ eq_refl)|exact P|]. eapply Df; eauto.
    + destruct (pass1_instr AsBuilt st m o) as [st2|] eqn:P; [|discriminate]. eapply IH; [exact S2|exact H|].
      eapply instr_wide; [exact (N16 _ _ _ eq_refl)|exact P|exact F].
Qed.

(** no accepted source contains an unwritable instruction *)
Theorem C66_unwritable : forall src p code fin a op bs m md n, program_means src p -> reference AsBuilt p = Some code ->
  labels AsBuilt p = Some fin -> labels16 fin -> In (a, op :: bs) code -> decode op = Some (m, md, n) -> unwritable m md bs = false.
Proof.
  intros src p code fin a op bs m md n PM R L L16 I D. unfold reference, labels in *. unfold pass1_program in *.
  destruct (pass1 AsBuilt (mkP1 0 [] []) p) as [st|] eqn:P; [|discriminate]. cbn [option_map] in L. injection L as <-.
  pose proof (pass1_wide p _ _ (program_16 _ _ PM) P (Forall_nil _)) as W. clear P.
  destruct st as [ad e items]. cbn [p1_env p1_items] in *.
  revert code R I. induction items as [|it items IH]; intros code R I; cbn [pass2] in R.
  { injection R as <-. destruct I. }
  inversion W as [|? ? [W1 Ro] W2]; subst.
  destruct (encode_operand AsBuilt e it) as [bs'|] eqn:E; [|discriminate].
  destruct (pass2 AsBuilt e items) as [l|] eqn:P2; [|discriminate]. injection R as <-.
  destruct I as [I|I]; [|eapply IH; eauto]. injection I as <- <- <-.
  destruct Ro as [[n0 Ro]|Ro]; [|rewrite Ro in D; vm_compute in D; discriminate].
  assert (D' : decode (it_opcode it) = Some (it_name it, it_mode it, n0)) by (apply Proof_Opcode.decode_listed; exact Ro).
  rewrite D in D'. injection D' as -> -> ->.
  unfold unwritable. destruct bs' as [|b [|h [|? ?]]]; try reflexivity. rewrite (r_jump _ _ _ _ (decode_row _ _ _ _ D)).
  destruct (absolute (it_mode it)) eqn:A; [|reflexivity]. destruct (is_jump_name (it_name it)) eqn:J; [reflexivity|]. cbn [negb andb].
  destruct (W1 A J) as (x & v & Ex & Ev & B & N). unfold encode_operand in E. rewrite Ex, Ev in E.
  assert (V : v <= 0xFFFF). { destruct x as [w|k]; [cbn in Ev; injection Ev as <-; exact N|exact (L16 k v Ev)]. }
  destruct (it_mode it); try discriminate; injection E as <- <-; unfold hi; apply Z.eqb_neq;
    rewrite Z.mod_small; try (assert (1 <= v / 256) by (apply Z.div_le_lower_bound; lia); lia);
    (split; [apply Z.div_pos; lia|apply Z.div_lt_upper_bound; lia]).
Qed.

(** every other instruction can be written *)
Theorem C66_writable_partial : forall op m md n bs, decode op = Some (m, md, n) -> 1 + Z.of_nat (List.length bs) = n ->
  Forall (fun b => 0 <= b < 256) bs -> unwritable m md bs = false ->
  exists line, forall more lines, disassemble more = Some lines -> disassemble ((op :: bs) ++ more) = Some (line :: lines).
Proof.
  intros op m md n bs D S B U. pose proof (decode_row _ _ _ _ D) as R. pose proof (r_size _ _ _ _ R) as Z1.
  assert (Bb : forallb isbyte bs = true).
  { apply forallb_forall. intros b Hb. rewrite Forall_forall in B. specialize (B b Hb). unfold isbyte.
    rewrite (proj2 (Z.leb_le 0 b)), (proj2 (Z.ltb_lt b 256)) by lia. reflexivity. }
  assert (Fi : exists f, field md bs = Some f).
  { destruct md, bs as [|b [|h [|? ?]]]; cbn [List.length operand_bytes] in *; try lia; cbn [field]; eauto. }
  destruct Fi as [f F]. assert (I : instruction_line op bs = Some (T m ++ f)).
  { unfold instruction_line. rewrite D, U, Bb. cbn [orb negb]. rewrite F. reflexivity. }
  exists (T m ++ f). intros more lines H. cbn [app disassemble]. rewrite D.
  assert (C : n = 1 /\ bs = [] \/ n = 2 /\ (exists b, bs = [b]) \/ n = 3 /\ exists b h, bs = [b; h]).
  { destruct md, bs as [|b [|h [|? ?]]]; cbn [List.length operand_bytes] in *; try lia; eauto 6. }
  destruct C as [[-> ->]|[[-> [b ->]]|[-> (b & h & ->)]]]; cbn [app]; rewrite I, H; reflexivity.
Qed.

(** such instructions exist: LDA $0010,Y has no zero-page form, and is refused; LDA $0010 becomes LDA $10 *)
Theorem C66_refuted : decode 0xB9 = Some ("LDA"%string, ABSY, 3) /\ unwritable "LDA" ABSY [0x10; 0] = true /\ listed "LDA" ZPY = None /\
  (exists o, gaia (T "f") (T "LDA $0010,Y") = Ret o /\ exit_code o = 1) /\
  decode 0xAD = Some ("LDA"%string, ABS, 3) /\ (exists o, gaia (T "f") (T "LDA $0010") = Ret o /\ binary o = [0xA5; 0x10]).
Proof.
  do 3 (split; [vm_compute; reflexivity|]). split; [eexists; split; vm_compute; reflexivity|]. split; [vm_compute; reflexivity|].
  eexists; split; vm_compute; reflexivity.
Qed.

Example C66_example : exists p code fin, program_means (join demo) p /\ reference AsBuilt p = Some code /\ labels AsBuilt p = Some fin /\
  labels16 fin /\ exists a bs, In (a, 0x99 :: bs) code.
Proof.
  destruct demo_ok as (S & F & _). destruct (program_check _ _ F S) as (_ & _ & PM). exists demo_stmts.
  do 2 eexists. split; [exact PM|]. split; [vm_compute; reflexivity|]. split; [vm_compute; reflexivity|]. split.
  - intros n v H. cbn [lookup] in H. repeat match type of H with (if ?c then _ else _) = _ => destruct c; [injection H as <-; vm_compute; discriminate|] end. discriminate.
  - do 2 eexists. cbn [In]. repeat (first [left; reflexivity | right]).
Qed.
