(** Proof_Refs.v -- the array of pending forward references is a growing list. *)
From Verif Require Import Base Proof_Base Model_Opcode Model_Error Model_Lexer Model_ForwardRef.

Record refs_ok (u : Unresolved) (refs : list ForwardRef) : Prop := {
  u_curr : un_curr u = Z.of_nat (List.length refs);
  u_room : un_curr u < un_size u;
  u_refs : un_refs u = map Some refs ++ repeat None (Z.to_nat (un_size u - un_curr u)) }.

Lemma refs_ok_init : refs_ok init_unresolved [].
Proof. constructor; reflexivity. Qed.

Definition MAX_REFS : Z := 1073741823.

Lemma upd_map_some : forall (refs : list ForwardRef) m r, (0 < m)%nat ->
  upd (map Some refs ++ repeat None m) (List.length refs) (Some r) =
  map Some (refs ++ [r]) ++ repeat None (m - 1).
Proof.
  intros refs m r Hm. destruct m as [|m]; [lia|]. cbn [repeat Nat.sub]. rewrite Nat.sub_0_r.
  induction refs as [|x refs IH]; cbn [map List.length app upd]; auto. f_equal. exact IH.
Qed.

Lemma refs_length : forall u refs, refs_ok u refs -> Z.of_nat (List.length (un_refs u)) = un_size u.
Proof.
  intros u refs [C R E]. rewrite E, app_length, map_length, repeat_length. lia.
Qed.

(** adding a reference; [grow] tells whether the array must grow *)
Definition must_grow (u : Unresolved) : bool := un_curr u =? un_size u - 1.

Theorem add_forward_ref_spec : forall ok u refs r, refs_ok u refs -> un_curr u < MAX_REFS ->
  exists u', add_forward_ref ok u r =
     Ret (if ok || negb (must_grow u) then FORWARD_REFERENCE_INSERTION_SUCCESS
          else ERROR_MEMORY_ALLOCATION_FAIL, u') /\
    refs_ok u' (if ok || negb (must_grow u) then refs ++ [r] else refs).
Proof.
  intros ok u refs r H L. pose proof H as [C R E]. pose proof (refs_length u refs H) as Ln.
  unfold MAX_REFS in L.
  assert (Fin : forall u1, refs_ok u1 refs -> un_curr u1 < un_size u1 - 1 ->
    exists u', (refs' <- put (un_refs u1) (un_curr u1) (Some r) ;;
     curr <- int_of (un_curr u1 + 1) ;;
     Ret (FORWARD_REFERENCE_INSERTION_SUCCESS, mkUnres refs' curr (un_size u1)))
    = Ret (FORWARD_REFERENCE_INSERTION_SUCCESS, u') /\ refs_ok u' (refs ++ [r])).
  { intros u1 H1 B. pose proof H1 as [C1 R1 E1]. pose proof (refs_length u1 refs H1) as Ln1.
    assert (put (un_refs u1) (un_curr u1) (Some r) =
            Ret (map Some (refs ++ [r]) ++ repeat None (Z.to_nat (un_size u1 - un_curr u1) - 1))) as ->.
    { apply put_ret. split; [lia|]. rewrite E1, C1, Nat2Z.id.
      rewrite upd_map_some; [reflexivity|lia]. }
    cbn [bind]. rewrite int_of_ok by (unfold INT_MIN, INT_MAX; lia). cbn [bind].
    eexists. split; [reflexivity|]. constructor; cbn [un_curr un_size un_refs].
    - rewrite app_length. cbn. lia.
    - lia.
    - f_equal. f_equal. lia. }
  unfold add_forward_ref, must_grow.
  destruct (Z.eqb_spec (un_curr u) (un_size u - 1)) as [G|G].
  - assert (R2 : resize_unresolved true u = Ret (Some
       (mkUnres (firstn (Z.to_nat (un_size u)) (un_refs u) ++ repeat None (Z.to_nat (un_size u)))
                (un_curr u) (2 * un_size u)))).
    { unfold resize_unresolved. rewrite int_of_ok by (unfold INT_MIN, INT_MAX; lia). reflexivity. }
    assert (R3 : resize_unresolved false u = Ret None).
    { unfold resize_unresolved. rewrite int_of_ok by (unfold INT_MIN, INT_MAX; lia). reflexivity. }
    match type of R2 with _ = Ret (Some ?x) => set (u1 := x) in * end.
    assert (H1 : refs_ok u1 refs).
    { constructor; unfold u1; cbn [un_curr un_size un_refs]; auto; [lia|].
      rewrite firstn_all2 by lia. rewrite E, <- app_assoc. f_equal. rewrite <- repeat_app. f_equal. lia. }
    destruct (Fin u1 H1) as (u' & Eu & Ok); [unfold u1; cbn [un_curr un_size]; lia|].
    destruct ok; rewrite ?R2, ?R3; cbn [bind orb negb]; [exists u'; rewrite Eu|exists u]; auto.
  - destruct (Fin u H) as (u' & Eu & Ok); [lia|].
    rewrite orb_true_r. cbn [bind]. exists u'. rewrite Eu. auto.
Qed.

(** the loop that frees the references stops at the terminator *)
Lemma destroy_spec : forall u refs, refs_ok u refs -> destroy_unresolved u = Ret (List.length refs).
Proof.
  intros u refs [C R E]. unfold destroy_unresolved. rewrite E.
  assert (K : forall i m, (0 < m)%nat -> destroy_loop (map Some refs ++ repeat None m) i =
                          Ret (i + List.length refs)%nat).
  { clear. induction refs as [|x refs IH]; intros i m Hm; cbn [map app destroy_loop List.length].
    - destruct m; [lia|]. cbn. f_equal. lia.
    - rewrite IH by auto. f_equal. lia. }
  rewrite K by lia. reflexivity.
Qed.

Lemma refs_get : forall u refs i r, refs_ok u refs -> nth_error refs i = Some r ->
  get (un_refs u) (Z.of_nat i) = Ret (Some r).
Proof.
  intros u refs i r [C R E] N. apply get_ret. split; [lia|]. rewrite Nat2Z.id, E.
  rewrite nth_error_app1.
  - rewrite nth_error_map, N. reflexivity.
  - rewrite map_length. apply nth_error_Some. congruence.
Qed.
