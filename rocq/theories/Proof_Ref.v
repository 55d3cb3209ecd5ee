(** Proof_Ref.v -- the one-pass diagnosis and the two-pass reference assembler agree. *)
From Verif Require Import Base Proof_Base Spec_Isa Spec_Text Spec_Asm Spec_Diag.

Section R.
Variable r : rules.
Local Notation encode_operand := (Spec_Asm.encode_operand r).
Local Notation pass1_instr := (Spec_Asm.pass1_instr r).
Local Notation pass1_stmt := (Spec_Asm.pass1_stmt r).
Local Notation pass2 := (Spec_Asm.pass2 r).
Local Notation pass1 := (Spec_Asm.pass1 r).
Local Notation pass1_program := (Spec_Asm.pass1_program r).
Local Notation reference := (Spec_Asm.reference r).
Local Notation diag_instr := (Spec_Diag.diag_instr r).
Local Notation diag_stmt := (Spec_Diag.diag_stmt r).
Local Notation complete := (Spec_Diag.complete r).
Local Notation diag_from := (Spec_Diag.diag_from r).
Local Notation accepts := (Spec_Diag.accepts r).
Local Notation state_after := (Spec_Diag.state_after r).
Local Notation diagnose := (Spec_Diag.diagnose r).
Local Notation d_close := (Spec_Diag.d_close r).

Definition p1_of (st : dstate) : pass1_state := mkP1 (d_addr st) (d_env st) (map pl_item (d_done st)).

Definition sound_placed (e : env) (p : placed) : Prop :=
  match pl_bytes p with
  | Some bs => encode_operand e (pl_item p) = Some bs
  | None => True
  end.

Definition extends (e e' : env) : Prop := forall n v, lookup e n = Some v -> lookup e' n = Some v.

Lemma extends_refl : forall e, extends e e.
Proof. intros e n v H. exact H. Qed.
Lemma extends_trans : forall a b c, extends a b -> extends b c -> extends a c.
Proof. intros a b c H1 H2 n v H. auto. Qed.

Lemma extends_define : forall e n v, lookup e n = None -> extends e ((n, v) :: e).
Proof.
  intros e n v H m w E. cbn [lookup]. destruct (text_eqb n m) eqn:K; [|exact E].
  apply text_eqb_eq in K. subst. congruence.
Qed.

Lemma encode_extends : forall e e' it bs, extends e e' -> encode_operand e it = Some bs -> encode_operand e' it = Some bs.
Proof.
  intros e e' it bs H E. unfold Spec_Asm.encode_operand in *. destruct (it_expr it) as [[v|l]|]; cbn [eval] in *; auto.
  destruct (lookup e l) as [v|] eqn:L; [|discriminate]. rewrite (H _ _ L). exact E.
Qed.

(** an operand that is known and cannot be encoded *)
Definition hopeless (e : env) (it : item) : Prop :=
  encode_operand e it = None /\ exists x v, it_expr it = Some x /\ eval e x = Some v.

Lemma hopeless_extends : forall e e' it, extends e e' -> hopeless e it -> encode_operand e' it = None.
Proof.
  intros e e' it H [E (x & v & Ex & Ev)]. unfold Spec_Asm.encode_operand in *. rewrite Ex in *. rewrite Ev in E.
  destruct x as [v'|l]; cbn [eval] in *; [injection Ev as ->; exact E|]. rewrite (H _ _ Ev). exact E.
Qed.

Lemma pass2_app : forall e l1 l2, pass2 e (l1 ++ l2) =
  match pass2 e l1, pass2 e l2 with Some a, Some b => Some (a ++ b) | _, _ => None end.
Proof.
  intros e l1 l2. induction l1 as [|it l1 IH]; cbn [app Spec_Asm.pass2].
  - destruct (pass2 e l2); reflexivity.
  - rewrite IH. destruct (encode_operand e it); [|reflexivity].
    destruct (pass2 e l1); [|reflexivity]. destruct (pass2 e l2); reflexivity.
Qed.

Lemma pass1_stmt_extends : forall st s st', pass1_stmt st s = Some st' ->
  (exists more, p1_items st' = p1_items st ++ more) /\ extends (p1_env st) (p1_env st').
Proof.
  assert (D : forall st n v st', define st n v = Some st' ->
    p1_items st' = p1_items st /\ extends (p1_env st) (p1_env st')).
  { intros st n v st' H. unfold define in H. destruct (lookup (p1_env st) n) eqn:L; [discriminate|].
    injection H as <-. cbn. split; [reflexivity|]. apply extends_define. exact L. }
  assert (I : forall st m o st', pass1_instr st m o = Some st' ->
    (exists more, p1_items st' = p1_items st ++ more) /\ p1_env st' = p1_env st).
  { intros st m o st' H. unfold Spec_Asm.pass1_instr in H. destruct (denoted_mode _ _ _); [|discriminate].
    destruct (has_mode _ _ _ _) as [[op size]|]; [|discriminate]. injection H as <-. cbn. eauto. }
  intros st s st' H. destruct s as [|n|n v|v| |[n|] m o]; cbn [Spec_Asm.pass1_stmt] in H.
  - injection H as <-. split; [exists []; rewrite app_nil_r; reflexivity|apply extends_refl].
  - destruct (D _ _ _ _ H) as [-> X]. split; [exists []; rewrite app_nil_r; reflexivity|exact X].
  - destruct (D _ _ _ _ H) as [-> X]. split; [exists []; rewrite app_nil_r; reflexivity|exact X].
  - injection H as <-. cbn. split; [exists []; rewrite app_nil_r; reflexivity|apply extends_refl].
  - injection H as <-. split; [exists []; rewrite app_nil_r; reflexivity|apply extends_refl].
  - destruct (define st n (p1_addr st)) as [st1|] eqn:E; [|discriminate].
    destruct (D _ _ _ _ E) as [A B]. destruct (I _ _ _ _ H) as [C F]. rewrite F, <- A. auto.
  - destruct (I _ _ _ _ H) as [C F]. rewrite F. split; [exact C|apply extends_refl].
Qed.

Lemma pass1_extends : forall p st st', pass1 st p = Some st' ->
  (exists more, p1_items st' = p1_items st ++ more) /\ extends (p1_env st) (p1_env st').
Proof.
  induction p as [|s p IH]; intros st st' H.
  - injection H as <-. split; [exists []; rewrite app_nil_r; reflexivity|apply extends_refl].
  - assert (s = SEnd \/ s <> SEnd) as [-> |Ns] by (destruct s; auto; right; discriminate).
    + injection H as <-. split; [exists []; rewrite app_nil_r; reflexivity|apply extends_refl].
    + assert (pass1 st (s :: p) = match pass1_stmt st s with Some st1 => pass1 st1 p | None => None end) as K
        by (destruct s; try congruence; reflexivity).
      rewrite K in H. destruct (pass1_stmt st s) as [st1|] eqn:E; [|discriminate].
      destruct (pass1_stmt_extends _ _ _ E) as [(m1 & A) B]. destruct (IH _ _ H) as [(m2 & C) D].
      split; [exists (m1 ++ m2); rewrite app_assoc, <- A; exact C|]. eapply extends_trans; eauto.
Qed.

(** ** One statement *)
Lemma diag_instr_ref : forall n st m o, Forall (sound_placed (d_env st)) (d_done st) ->
  match diag_instr n st m o with
  | inl st' => pass1_instr (p1_of st) m o = Some (p1_of st') /\
               Forall (sound_placed (d_env st')) (d_done st') /\ d_env st' = d_env st
  | inr _ => pass1_instr (p1_of st) m o = None \/
             exists st', pass1_instr (p1_of st) m o = Some st' /\ exists it, In it (p1_items st') /\ hopeless (p1_env st') it
  end.
Proof.
  intros n st m o HS. unfold Spec_Diag.diag_instr, Spec_Asm.pass1_instr. cbn [p1_of p1_env p1_addr p1_items].
  fold (value_of (d_env st) o).
  destruct (unresolved (d_env st) o && negb (is_branch_name m || is_jump_name m)) eqn:U.
  - apply andb_true_iff in U. destruct U as [U V]. apply negb_true_iff, orb_false_iff in V. destruct V as [B J].
    left. assert (denoted_mode m o (value_of (d_env st) o) = None) as ->; [|reflexivity].
    unfold denoted_mode, value_of, unresolved in *. rewrite B, J.
    destruct (operand_expr o) as [[v|l]|] eqn:Eo; try discriminate. cbn [eval].
    destruct (lookup (d_env st) l); [discriminate|]. destruct o; cbn in Eo; try discriminate; reflexivity.
  - destruct (denoted_mode m o (value_of (d_env st) o)) as [md|]; [|left; reflexivity].
    destruct (has_mode r m md _) as [[op size]|]; [|left; reflexivity].
    destruct (unresolved (d_env st) o) eqn:Un.
    + cbv zeta. unfold p1_of. cbn [d_env d_done d_addr]. split; [rewrite map_app; reflexivity|]. split; [|reflexivity].
      apply Forall_app. split; [exact HS|]. constructor; [exact I|constructor].
    + destruct (encode_operand (d_env st) _) as [bs|] eqn:En.
      * cbv zeta. unfold p1_of. cbn [d_env d_done d_addr]. split; [rewrite map_app; reflexivity|]. split; [|reflexivity].
        apply Forall_app. split; [exact HS|]. constructor; [exact En|constructor].
      * right. eexists. split; [reflexivity|]. cbn [p1_items p1_env]. eexists. split; [apply in_or_app; right; left; reflexivity|].
        split; [exact En|]. unfold Spec_Asm.encode_operand in En. cbn [it_expr it_mode it_addr] in *.
        unfold unresolved in Un. destruct (operand_expr o) as [[v|l]|]; [| |discriminate].
        -- exists (Num v), v. auto.
        -- destruct (lookup (d_env st) l) as [v|] eqn:L; [|discriminate]. exists (Lab l), v. auto.
Qed.

Lemma sound_define : forall st n v, lookup (d_env st) n = None -> Forall (sound_placed (d_env st)) (d_done st) ->
  Forall (sound_placed (d_env (d_define st n v))) (d_done (d_define st n v)).
Proof.
  intros st n v L H. cbn [d_define d_env d_done]. eapply Forall_impl; [|exact H]. intros p Hp.
  unfold sound_placed in *. destruct (pl_bytes p); [|exact I]. eapply encode_extends; [|exact Hp]. apply extends_define. exact L.
Qed.

Lemma diag_stmt_ref : forall n st s, Forall (sound_placed (d_env st)) (d_done st) ->
  match diag_stmt n st s with
  | inl st' => pass1_stmt (p1_of st) s = Some (p1_of st') /\ Forall (sound_placed (d_env st')) (d_done st')
  | inr _ => pass1_stmt (p1_of st) s = None \/
             exists st', pass1_stmt (p1_of st) s = Some st' /\ exists it, In it (p1_items st') /\ hopeless (p1_env st') it
  end.
Proof.
  intros n st s HS. destruct s as [|l|l v|v| |[l|] m o]; cbn [Spec_Diag.diag_stmt Spec_Asm.pass1_stmt].
  - auto.
  - unfold define. cbn [p1_of p1_env]. destruct (lookup (d_env st) l) eqn:L; [left; reflexivity|].
    split; [reflexivity|apply sound_define; auto].
  - unfold define. cbn [p1_of p1_env]. destruct (lookup (d_env st) l) eqn:L; [left; reflexivity|].
    split; [reflexivity|apply sound_define; auto].
  - auto.
  - auto.
  - unfold define. cbn [p1_of p1_env]. destruct (lookup (d_env st) l) eqn:L; [left; reflexivity|].
    change (mkP1 (p1_addr (p1_of st)) ((l, p1_addr (p1_of st)) :: d_env st) (p1_items (p1_of st)))
      with (p1_of (d_define st l (d_addr st))).
    pose proof (diag_instr_ref n (d_define st l (d_addr st)) m o (sound_define _ _ _ L HS)) as H.
    destruct (diag_instr n (d_define st l (d_addr st)) m o); [tauto|exact H].
  - pose proof (diag_instr_ref n st m o HS) as H. destruct (diag_instr n st m o); [tauto|exact H].
Qed.

Lemma complete_pass2 : forall e l, Forall (sound_placed e) l ->
  match complete e l with
  | inl code => pass2 e (map pl_item l) = Some code
  | inr _ => pass2 e (map pl_item l) = None
  end.
Proof.
  intros e l H. induction H as [|p l Hp H IH]; [reflexivity|]. cbn [Spec_Diag.complete map Spec_Asm.pass2].
  unfold sound_placed in Hp. destruct (pl_bytes p) as [bs|].
  - rewrite Hp. destruct (complete e l); rewrite IH; reflexivity.
  - destruct (encode_operand e (pl_item p)); [|reflexivity]. destruct (complete e l); rewrite IH; reflexivity.
Qed.

Lemma hopeless_pass2 : forall e l it, In it l -> encode_operand e it = None -> pass2 e l = None.
Proof.
  intros e l it. induction l as [|x l IH]; intros H E; [destruct H|]. destruct H as [-> |Hin]; cbn [Spec_Asm.pass2].
  - rewrite E. reflexivity.
  - rewrite (IH Hin E). destruct (encode_operand e x); reflexivity.
Qed.

(** ** The whole program *)
Definition finish_ref (o : option pass1_state) : option (list (Z * list Z)) :=
  match o with None => None | Some st => pass2 (p1_env st) (p1_items st) end.

Lemma diag_from_ref : forall p n st, Forall (sound_placed (d_env st)) (d_done st) ->
  match diag_from n st p with
  | DOk st' code => pass1 (p1_of st) p = Some (p1_of st') /\ Forall (sound_placed (d_env st')) (d_done st') /\
                    complete (d_env st') (d_done st') = inl code /\
                    finish_ref (pass1 (p1_of st) p) = Some code
  | DError _ _ _ => finish_ref (pass1 (p1_of st) p) = None
  end.
Proof.
  assert (C : forall n st p, Forall (sound_placed (d_env st)) (d_done st) -> pass1 (p1_of st) p = Some (p1_of st) ->
    diag_from n st p = d_close st ->
    match diag_from n st p with
    | DOk st' code => pass1 (p1_of st) p = Some (p1_of st') /\ Forall (sound_placed (d_env st')) (d_done st') /\
                      complete (d_env st') (d_done st') = inl code /\
                      finish_ref (pass1 (p1_of st) p) = Some code
    | DError _ _ _ => finish_ref (pass1 (p1_of st) p) = None
    end).
  { intros n st p H E ->. unfold Spec_Diag.d_close. pose proof (complete_pass2 _ _ H) as K.
    destruct (complete (d_env st) (d_done st)) as [code|[k m]] eqn:Ec; rewrite E; cbn [finish_ref p1_of p1_env p1_items]; auto. }
  induction p as [|s p IH]; intros n st H; [apply C; auto|].
  assert (s = SEnd \/ s <> SEnd) as [-> |Ns] by (destruct s; auto; right; discriminate); [apply C; auto|].
  assert (pass1 (p1_of st) (s :: p) = match pass1_stmt (p1_of st) s with Some st1 => pass1 st1 p | None => None end) as ->
        by (destruct s; try congruence; reflexivity).
  assert (diag_from n st (s :: p) = match diag_stmt n st s with
        | inl st' => diag_from (n + 1) st' p | inr (m, w) => DError n m w end) as -> by (destruct s; try congruence; reflexivity).
  pose proof (diag_stmt_ref n st s H) as S. destruct (diag_stmt n st s) as [st1|[m w]].
  - destruct S as [-> S]. apply IH. exact S.
  - destruct S as [-> |(st' & -> & it & Hin & Hop)]; [reflexivity|].
    destruct (pass1 st' p) as [st2|] eqn:E; [|reflexivity]. cbn [finish_ref].
    destruct (pass1_extends _ _ _ E) as [(more & A) B].
    apply (hopeless_pass2 _ _ it); [rewrite A; apply in_or_app; left; exact Hin|].
    eapply hopeless_extends; eauto.
Qed.

Theorem diagnose_reference : forall p,
  match diagnose p with
  | DOk st code => reference p = Some code /\ pass1_program p = Some (p1_of st) /\
                   Forall (sound_placed (d_env st)) (d_done st) /\ complete (d_env st) (d_done st) = inl code
  | DError _ _ _ => reference p = None
  end.
Proof.
  intro p. pose proof (diag_from_ref p 1 (mkD 0 [] []) (Forall_nil _)) as H. unfold Spec_Diag.diagnose, Spec_Asm.reference, Spec_Asm.pass1_program.
  change (p1_of (mkD 0 [] [])) with (mkP1 0 [] []) in H. unfold finish_ref in H.
  destruct (diag_from 1 (mkD 0 [] []) p); tauto.
Qed.

End R.
