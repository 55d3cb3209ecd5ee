(** Proof_HeapRefs.v -- the pending references in the heap of Model_Memory.v do what
    Model_ForwardRef.v says. *)
From Coq Require Import Permutation.
From Verif Require Import Base Model_Opcode Model_Lexer Model_SymbolTable Model_ForwardRef Model_Memory
  Proof_Base Proof_Heap Proof_HeapTable.

(** a pending reference: the addresses of the struct, its label, its line, its Instruction; its
    value *)
Record pref := mkPref { f_addr : nat; f_label : nat; f_line : nat; f_instr : nat; f_ref : ForwardRef }.
Definition pref_ptr (g : pref) : ptr := Some (f_addr g).
Definition pref_val (g : pref) : option ForwardRef := Some (f_ref g).
Definition pref_cell (g : pref) : Cell :=
  CRef (Some (f_label g)) (Some (f_line g)) (Some (f_instr g)) (fr_instr (f_ref g)) (fr_pc (f_ref g))
       (fr_line_num (f_ref g)) (fr_operand_status (f_ref g)) (fr_operand_location (f_ref g)).
Definition pref_cells (g : pref) : list block :=
  [(f_addr g, pref_cell g);
   (f_label g, CStr (List.length (fr_label (f_ref g)) + 1) (fr_label (f_ref g)));
   (f_line g, CStr (List.length (fr_source_line (f_ref g)) + 1) (fr_source_line (f_ref g)));
   (f_instr g, CInstr)].
(** [m] is the number of unused slots *)
Definition size_of (gs : list pref) (m : nat) : Z := Z.of_nat (List.length gs + m).
Definition unres_cells (a s : nat) (gs : list pref) (m : nat) : list block :=
  (a, CUnres (Some s) (Z.of_nat (List.length gs)) (size_of gs m)) ::
  (s, CArray (map pref_ptr gs ++ repeat None m)) :: flat_map pref_cells gs.
Definition unres (gs : list pref) (m : nat) : Unresolved :=
  mkUnres (map pref_val gs ++ repeat None m) (Z.of_nat (List.length gs)) (size_of gs m).

Lemma nofile_refs : forall gs, nofile (flat_map pref_cells gs).
Proof. induction gs; [constructor|]. cbn [flat_map]. apply nofile_app; [nofile|assumption]. Qed.

Lemma init_unres_spec : forall orc {w} h l, heap_is orc w h l ->
  exists p h', init_unresolved_h orc h = Ret (p, h') /\
  ((exists a s, p = Some a /\ heap_is orc w h' (unres_cells a s [] 8 ++ l)) \/
   (p = None /\ exists leak, nofile leak /\ heap_is orc true h' (leak ++ l))).
Proof.
  intros orc w h l H. unfold init_unresolved_h.
  destruct (malloc_spec orc CUninit h l H) as [(a & h1 & -> & H1)|(h1 & -> & H1)]; cbn [is_null].
  2:{ eexists _, _. split; [reflexivity|]. right. split; [reflexivity|]. exists []. split; [constructor|]. exact H1. }
  destruct (malloc_spec orc (CArray (repeat None 8)) h1 _ H1) as [(b & h2 & -> & H2)|(h2 & -> & H2)];
    cbn [is_null].
  2:{ eexists _, _. split; [reflexivity|]. right. split; [reflexivity|].
      exists [(a, CUninit)]. split; [nofile|]. exact H2. }
  destruct (store_at h2 _ a CUninit (CUnres (Some b) 0 UNRESOLVED_BASE_SIZE)
    ((b, CArray (repeat None 8)) :: l) H2) as (h3 & -> & H3); [perm|]. cbn [bind].
  eexists _, _. split; [reflexivity|]. left. exists a, b. split; [reflexivity|]. exact H3.
Qed.

Lemma destroy_ref_spec : forall {orc w} h l g r, heap_is orc w h l -> Permutation l (pref_cells g ++ r) ->
  exists h', destroy_forward_ref_h h (Some (f_addr g)) = Ret h' /\ heap_is orc w h' r.
Proof.
  intros orc w h l g r H P. apply (heap_perm _ _ _ H) in P. unfold destroy_forward_ref_h.
  rewrite (load_spec h _ (f_addr g) (pref_cell g) P) by (left; reflexivity).
  unfold pref_cell at 1. cbn [bind is_null].
  unfold pref_cells in P.
  set (c1 := (f_addr g, pref_cell g)) in *. set (c4 := (f_instr g, CInstr)) in *.
  set (c2 := CStr (List.length (fr_label (f_ref g)) + 1) (fr_label (f_ref g))) in *.
  set (c3 := CStr (List.length (fr_source_line (f_ref g)) + 1) (fr_source_line (f_ref g))) in *.
  destruct (free_at h _ (f_label g) c2 (c1 :: (f_line g, c3) :: c4 :: r) P) as (h1 & -> & H1); [perm|].
  cbn [bind].
  destruct (free_at h1 _ (f_line g) c3 (c1 :: c4 :: r) H1) as (h2 & -> & H2); [perm|]. cbn [bind].
  destruct (destroy_instruction_spec h2 _ (f_instr g) (c1 :: r) H2) as (h3 & -> & H3); [unfold c4; perm|].
  cbn [bind]. eapply free_spec. exact H3.
Qed.

Lemma destroy_refs_spec : forall {orc w} todo done m fuel a s k n h l r,
  heap_is orc w h l -> (0 < m)%nat -> (List.length todo < fuel)%nat ->
  Permutation l ((a, CUnres (Some s) k n) ::
      (s, CArray (map pref_ptr (done ++ todo) ++ repeat None m)) :: flat_map pref_cells todo ++ r) ->
  exists h', destroy_refs_h fuel (Z.of_nat (List.length done)) (Some a) h = Ret h' /\
    heap_is orc w h' ((a, CUnres (Some s) k n) ::
      (s, CArray (map pref_ptr (done ++ todo) ++ repeat None m)) :: r).
Proof.
  intros orc w. induction todo as [|t todo IH]; intros done m fuel a s k n h l r H Hm Hf P; apply (heap_perm _ _ _ H) in P;
    (destruct fuel as [|fuel]; [lia|]); cbn [destroy_refs_h];
    unfold load_unres; rewrite (load_spec h _ a (CUnres (Some s) k n) P) by (left; reflexivity);
    cbn [bind]; unfold load_array.
  - rewrite (load_spec h _ s (CArray (map pref_ptr (done ++ []) ++ repeat None m)) P) by (right; left; reflexivity).
    cbn [bind]. rewrite (get_nth _ _ _ (@None nat)).
    2:{ rewrite app_nil_r, nth_error_app2; rewrite map_length; [|lia]. rewrite Nat.sub_diag.
        destruct m; [lia|reflexivity]. }
    cbn [bind is_null]. eexists. split; [reflexivity|]. cbn [flat_map app] in P. exact P.
  - rewrite (load_spec h _ s (CArray (map pref_ptr (done ++ t :: todo) ++ repeat None m)) P)
      by (right; left; reflexivity).
    cbn [bind]. rewrite (get_nth _ _ _ (Some (f_addr t))).
    2:{ rewrite nth_error_app1 by (rewrite map_length, app_length; cbn [List.length]; lia).
        rewrite map_app, nth_error_app2; rewrite map_length; [|lia]. rewrite Nat.sub_diag. reflexivity. }
    cbn [bind is_null].
    destruct (destroy_ref_spec h _ t
      ((a, CUnres (Some s) k n) :: (s, CArray (map pref_ptr (done ++ t :: todo) ++ repeat None m)) ::
       flat_map pref_cells todo ++ r) P) as (h1 & -> & H1).
    { cbn [flat_map]. set (cs := pref_cells t). perm. }
    cbn [bind]. destruct (IH (done ++ [t]) m fuel a s k n h1 _ r H1 Hm) as (h2 & E & H2).
    { cbn [List.length] in Hf. lia. }
    { rewrite <- app_assoc. cbn [app]. reflexivity. }
    rewrite app_length, Nat2Z.inj_add in E. cbn [List.length] in E. change (Z.of_nat 1) with 1 in E.
    rewrite E. eexists. split; [reflexivity|]. rewrite <- app_assoc in H2. exact H2.
Qed.

Lemma destroy_unres_spec : forall {orc w} h l a s gs m r, heap_is orc w h l -> (0 < m)%nat ->
  Permutation l (unres_cells a s gs m ++ r) ->
  exists h', destroy_unresolved_h h (Some a) = Ret h' /\ heap_is orc w h' r.
Proof.
  intros orc w h l a s gs m r H Hm P. assert (Q := heap_perm _ _ _ H P).
  unfold destroy_unresolved_h. cbn [is_null]. unfold load_unres.
  rewrite (load_spec h _ a (CUnres (Some s) (Z.of_nat (List.length gs)) (size_of gs m)) Q) by (left; reflexivity).
  cbn [bind is_null]. unfold load_array.
  rewrite (load_spec h _ s (CArray (map pref_ptr gs ++ repeat None m)) Q) by (right; left; reflexivity).
  cbn [bind].
  destruct (destroy_refs_spec gs [] m (S (List.length (map pref_ptr gs ++ repeat None m))) a s
              (Z.of_nat (List.length gs)) (size_of gs m) h l r H Hm) as (h1 & E & H1).
  { rewrite app_length, map_length. lia. }
  { etransitivity; [exact P|]. unfold unres_cells. perm. }
  change (Z.of_nat (List.length (@nil pref))) with 0 in E. rewrite E. cbn [bind].
  destruct (free_at h1 _ s (CArray (map pref_ptr gs ++ repeat None m))
    ((a, CUnres (Some s) (Z.of_nat (List.length gs)) (size_of gs m)) :: r) H1)
    as (h2 & -> & H2); [cbn [app]; perm|]. cbn [bind]. eapply free_spec. exact H2.
Qed.
(** after a failed realloc *)
Lemma destroy_unres_broken : forall {orc w} h l a k n r, heap_is orc w h l ->
  Permutation l ((a, CUnres None k n) :: r) -> destroy_unresolved_h h (Some a) = Ret h.
Proof.
  intros orc w h l a k n r H P. apply (heap_perm _ _ _ H) in P.
  unfold destroy_unresolved_h. cbn [is_null]. unfold load_unres.
  rewrite (load_spec h _ a (CUnres None k n) P) by (left; reflexivity). reflexivity.
Qed.

(** ** create_forward_ref *)
Lemma create_ref_spec_h : forall orc {w} h l buf i t st pc n ref,
  heap_is orc w h l -> create_forward_ref true buf i t st pc n = Ret (Some ref) ->
  exists p h', create_forward_ref_h orc h buf i t st pc n = Ret (p, h') /\
  ((exists g, p = Some (f_addr g) /\ f_ref g = ref /\ heap_is orc w h' (pref_cells g ++ l)) \/
   (p = None /\ exists leak, nofile leak /\ heap_is orc true h' (leak ++ l))).
Proof.
  intros orc w h l buf i t st pc n ref H R. unfold create_forward_ref in R. cbn [negb] in R.
  apply bind_ret in R. destruct R as (line & R1 & R).
  destruct (tk_loc t) as [d|] eqn:D; [|discriminate]. injection R as <-.
  unfold create_forward_ref_h. rewrite D.
  destruct (malloc_spec orc CUninit h l H) as [(a & h1 & -> & H1)|(h1 & -> & H1)]; cbn [is_null].
  2:{ eexists _, _. split; [reflexivity|]. right. split; [reflexivity|]. exists []. split; [constructor|]. exact H1. }
  rewrite R1. cbn [bind].
  destruct (malloc_spec orc (CStr (List.length line + 1) []) h1 _ H1) as [(b & h2 & -> & H2)|(h2 & -> & H2)];
    cbn [is_null].
  2:{ eexists _, _. split; [reflexivity|]. right. split; [reflexivity|].
      exists [(a, CUninit)]. split; [nofile|]. exact H2. }
  destruct (fill_at h2 _ b (List.length line + 1) line ((a, CUninit) :: l) H2) as (h3 & -> & H3);
    [reflexivity|lia|]. cbn [bind].
  destruct (malloc_spec orc (CStr (List.length (tk_str t) + 1) []) h3 _ H3) as [(c & h4 & -> & H4)|(h4 & -> & H4)];
    cbn [is_null].
  2:{ eexists _, _. split; [reflexivity|]. right. split; [reflexivity|].
      exists [(b, CStr (List.length line + 1) line); (a, CUninit)]. split; [nofile|]. exact H4. }
  destruct (fill_at h4 _ c (List.length (tk_str t) + 1) (tk_str t) ((b, CStr (List.length line + 1) line) :: (a, CUninit) :: l) H4)
    as (h5 & -> & H5); [reflexivity|lia|]. cbn [bind].
  destruct (init_instruction_spec orc h5 _ H5) as (p & h6 & -> & [(e & -> & H6)|(-> & H6)]); cbn [bind is_null].
  2:{ eexists _, _. split; [reflexivity|]. right. split; [reflexivity|].
      exists [(c, CStr (List.length (tk_str t) + 1) (tk_str t)); (b, CStr (List.length line + 1) line); (a, CUninit)]. split; [nofile|]. exact H6. }
  set (ref := mkRef (tk_str t) line (mkInstr (i_mnemonic i) (i_bitfield i) (i_bitflag i) (i_opcode i)) pc n st d).
  set (g := mkPref a c b e ref).
  destruct (store_at h6 _ a CUninit (pref_cell g)
    ((e, CInstr) :: (c, CStr (List.length (tk_str t) + 1) (tk_str t)) :: (b, CStr (List.length line + 1) line) :: l) H6)
    as (h7 & E7 & H7); [perm|].
  unfold pref_cell in E7. cbn [g f_label f_line f_instr f_ref ref fr_instr fr_pc fr_line_num fr_operand_status fr_operand_location] in E7.
  rewrite E7. cbn [bind]. eexists _, _. split; [reflexivity|]. left. exists g. split; [reflexivity|]. split; [reflexivity|].
  eapply heap_perm; [exact H7|]. unfold pref_cells. cbn [g f_addr f_label f_line f_instr f_ref ref fr_label fr_source_line].
  set (q := (a, pref_cell g)). change (mkPref a c b e (mkRef (tk_str t) line (mkInstr (i_mnemonic i) (i_bitfield i) (i_bitflag i) (i_opcode i)) pc n st d)) with g.
  fold q. perm.
Qed.

(** ** add_forward_ref *)
Lemma upd_end : forall (A B : Type) (f : A -> option B) gs m x, (0 < m)%nat ->
  upd (map f gs ++ repeat None m) (List.length gs) (f x) = map f (gs ++ [x]) ++ repeat None (m - 1).
Proof.
  intros A B f gs m x Hm. induction gs as [|g gs IH]; cbn [map app List.length upd].
  - destruct m; [lia|]. cbn [repeat upd Nat.sub]. rewrite Nat.sub_0_r. reflexivity.
  - rewrite IH. reflexivity.
Qed.
Lemma put_end : forall (A B : Type) (f : A -> option B) gs m x, (0 < m)%nat ->
  put (map f gs ++ repeat None m) (Z.of_nat (List.length gs)) (f x) =
  Ret (map f (gs ++ [x]) ++ repeat None (m - 1)).
Proof.
  intros A B f gs m x Hm. unfold put. rewrite app_length, map_length, repeat_length.
  destruct (in_range 0 (Z.of_nat (List.length gs)) (Z.of_nat (List.length gs + m) - 1)) eqn:E.
  - rewrite Nat2Z.id, upd_end by exact Hm. reflexivity.
  - apply in_range_false in E. lia.
Qed.

Lemma add_ref_spec_h : forall orc {w} h l a s gs m g r c u1,
  heap_is orc w h l -> (0 < m)%nat -> Permutation l (unres_cells a s gs m ++ pref_cells g ++ r) ->
  add_forward_ref true (unres gs m) (f_ref g) = Ret (c, u1) ->
  exists c' h', add_forward_ref_h orc h (Some a) (Some (f_addr g)) = Ret (c', h') /\
  ((c' = c /\ exists s' m', (0 < m')%nat /\ u1 = unres (gs ++ [g]) m' /\
      heap_is orc w h' (unres_cells a s' (gs ++ [g]) m' ++ r)) \/
   (c' = ERROR_MEMORY_ALLOCATION_FAIL /\ 
      exists k n leak, nofile leak /\ heap_is orc true h' ((a, CUnres None k n) :: leak ++ r))).
Proof.
  intros orc w h l a s gs m g r c u1 H Hm P R. apply (heap_perm _ _ _ H) in P.
  unfold add_forward_ref in R. cbn [unres un_curr un_size un_refs] in R.
  unfold add_forward_ref_h, load_unres.
  rewrite (load_spec h _ a (CUnres (Some s) (Z.of_nat (List.length gs)) (size_of gs m)) P) by (left; reflexivity).
  cbn [bind].
  assert (X : exists m1, (1 < m1)%nat /\ 
    (refs <- put (map pref_val gs ++ repeat None m1) (Z.of_nat (List.length gs)) (Some (f_ref g)) ;;
     curr <- int_of (Z.of_nat (List.length gs) + 1) ;;
     Ret (FORWARD_REFERENCE_INSERTION_SUCCESS, mkUnres refs curr (size_of gs m1))) = Ret (c, u1) /\
    exists ok h1,
     (if Z.of_nat (List.length gs) =? size_of gs m - 1 then resize_unresolved_h orc h (Some a) else Ret (true, h)) = Ret (ok, h1) /\
     ((ok = true /\ exists s1, heap_is orc w h1 (unres_cells a s1 gs m1 ++ pref_cells g ++ r)) \/
      (ok = false /\ exists k n leak, nofile leak /\ heap_is orc true h1 ((a, CUnres None k n) :: leak ++ r)))).
  { destruct (Z.eqb_spec (Z.of_nat (List.length gs)) (size_of gs m - 1)) as [E|E].
    - assert (m = 1%nat) as -> by (unfold size_of in E; lia).
      unfold resize_unresolved in R. cbn [unres un_curr un_size un_refs negb] in R.
      unfold resize_unresolved_h, load_unres.
      rewrite (load_spec h _ a (CUnres (Some s) (Z.of_nat (List.length gs)) (size_of gs 1)) P) by (left; reflexivity).
      cbn [bind]. unfold load_array.
      destruct (int_of (2 * size_of gs 1)) as [ns| |] eqn:I; [|discriminate|discriminate].
      apply int_of_ret in I. destruct I as [I ->]. cbn [bind un_curr un_size un_refs] in *.
      rewrite (load_spec h _ s (CArray (map pref_ptr gs ++ repeat None 1)) P) by (right; left; reflexivity).
      cbn [bind].
      assert (Z2 : Z.to_nat (size_of gs 1) = (List.length gs + 1)%nat) by (unfold size_of; lia).
      rewrite Z2 in *.
      rewrite firstn_all2 in R by (rewrite app_length, map_length, repeat_length; lia).
      rewrite (@firstn_all2 ptr) by (rewrite app_length, map_length, repeat_length; lia).
      rewrite <- app_assoc in R. rewrite <- repeat_app in R. rewrite <- app_assoc, <- repeat_app.
      set (m1 := (1 + (List.length gs + 1))%nat) in *.
      assert (SZ : 2 * size_of gs 1 = size_of gs m1) by (unfold size_of, m1; lia). rewrite SZ in *.
      exists m1. split; [unfold m1; lia|]. split; [exact R|].
      destruct (malloc_spec orc (CArray (map pref_ptr gs ++ repeat None m1)) h _ P)
        as [(b & h1 & -> & H1)|(h1 & -> & H1)]; cbn [is_null].
      + destruct (free_at h1 _ s (CArray (map pref_ptr gs ++ repeat None 1))
          ((b, CArray (map pref_ptr gs ++ repeat None m1)) ::
           (a, CUnres (Some s) (Z.of_nat (List.length gs)) (size_of gs 1)) :: flat_map pref_cells gs ++ pref_cells g ++ r) H1)
          as (h2 & -> & H2). { unfold unres_cells. set (cs := pref_cells g). perm. }
        cbn [bind].
        destruct (store_at h2 _ a (CUnres (Some s) (Z.of_nat (List.length gs)) (size_of gs 1))
          (CUnres (Some b) (Z.of_nat (List.length gs)) (size_of gs m1))
          ((b, CArray (map pref_ptr gs ++ repeat None m1)) :: flat_map pref_cells gs ++ pref_cells g ++ r) H2)
          as (h3 & -> & H3). { set (cs := pref_cells g). perm. }
        cbn [bind]. eexists _, _. split; [reflexivity|]. left. split; [reflexivity|]. exists b. exact H3.
      + destruct (store_at h1 _ a (CUnres (Some s) (Z.of_nat (List.length gs)) (size_of gs 1))
          (CUnres None (Z.of_nat (List.length gs)) (size_of gs 1))
          ((s, CArray (map pref_ptr gs ++ repeat None 1)) :: flat_map pref_cells gs ++ pref_cells g ++ r) H1)
          as (h2 & -> & H2). { unfold unres_cells. set (cs := pref_cells g). perm. }
        cbn [bind]. eexists _, _. split; [reflexivity|]. right. split; [reflexivity|].
        exists (Z.of_nat (List.length gs)), (size_of gs 1), ((s, CArray (map pref_ptr gs ++ repeat None 1)) :: flat_map pref_cells gs ++ pref_cells g).
        split; [constructor; [discriminate|]; apply nofile_app; [apply nofile_refs|nofile]|].
        eapply heap_perm; [exact H2|]. set (cs := pref_cells g). perm.
    - exists m. split; [unfold size_of in E; lia|]. split; [exact R|]. eexists _, _. split; [reflexivity|].
      left. split; [reflexivity|]. exists s. exact P. }
  destruct X as (m1 & Hm1 & R' & ok & h1 & -> & [(-> & s1 & H1)|(-> & k & n & leak & NF & H1)]); cbn [bind negb].
  2:{ eexists _, _. split; [reflexivity|]. right. split; [reflexivity|]. exists k, n, leak. auto. }
  change (Some (f_ref g)) with (pref_val g) in R'. rewrite (put_end _ _ pref_val gs m1 g) in R' by lia. cbn [bind] in R'.
  destruct (int_of (Z.of_nat (List.length gs) + 1)) as [k| |] eqn:I; [|discriminate|discriminate].
  assert (I' := I). apply int_of_ret in I'. destruct I' as [_ ->]. cbn [bind] in R'. injection R' as <- <-.
  rewrite (load_spec h1 _ a (CUnres (Some s1) (Z.of_nat (List.length gs)) (size_of gs m1)) H1) by (left; reflexivity).
  cbn [bind]. unfold load_array.
  rewrite (load_spec h1 _ s1 (CArray (map pref_ptr gs ++ repeat None m1)) H1) by (right; left; reflexivity).
  cbn [bind]. change (Some (f_addr g)) with (pref_ptr g). rewrite (put_end _ _ pref_ptr gs m1 g) by lia. cbn [bind].
  destruct (store_at h1 _ s1 (CArray (map pref_ptr gs ++ repeat None m1))
    (CArray (map pref_ptr (gs ++ [g]) ++ repeat None (m1 - 1)))
    ((a, CUnres (Some s1) (Z.of_nat (List.length gs)) (size_of gs m1)) :: flat_map pref_cells gs ++ pref_cells g ++ r) H1)
    as (h2 & -> & H2). { unfold unres_cells. set (cs := pref_cells g). perm. }
  cbn [bind]. rewrite I. cbn [bind].
  destruct (store_at h2 _ a (CUnres (Some s1) (Z.of_nat (List.length gs)) (size_of gs m1))
    (CUnres (Some s1) (Z.of_nat (List.length gs) + 1) (size_of gs m1))
    ((s1, CArray (map pref_ptr (gs ++ [g]) ++ repeat None (m1 - 1))) :: flat_map pref_cells gs ++ pref_cells g ++ r) H2)
    as (h3 & -> & H3). { set (cs := pref_cells g). perm. }
  cbn [bind]. eexists _, _. split; [reflexivity|]. left. split; [reflexivity|].
  assert (SZ : size_of (gs ++ [g]) (m1 - 1) = size_of gs m1).
  { unfold size_of. rewrite app_length. cbn [List.length]. lia. }
  assert (LN : Z.of_nat (List.length (gs ++ [g])) = Z.of_nat (List.length gs) + 1).
  { rewrite app_length. cbn [List.length]. lia. }
  exists s1, (m1 - 1)%nat. split; [lia|]. split.
  - unfold unres. rewrite SZ, LN. reflexivity.
  - eapply heap_perm; [exact H3|]. unfold unres_cells. rewrite SZ, LN, flat_map_app. cbn [flat_map].
    set (cs := pref_cells g). perm.
Qed.

(** ** reading a reference *)
Lemma read_ref_spec : forall {orc w} h l g, heap_is orc w h l -> (forall x, In x (pref_cells g) -> In x l) ->
  read_ref h (Some (f_addr g)) = Ret (f_ref g).
Proof.
  intros orc w h l g H J. unfold read_ref.
  rewrite (load_spec h _ (f_addr g) (pref_cell g) H) by (apply J; left; reflexivity).
  unfold pref_cell. cbn [bind]. unfold load_str, load_instr.
  rewrite (load_spec h _ (f_label g) _ H (J _ (or_intror (or_introl eq_refl)))). cbn [bind].
  rewrite (load_spec h _ (f_line g) _ H (J _ (or_intror (or_intror (or_introl eq_refl))))). cbn [bind].
  rewrite (load_spec h _ (f_instr g) _ H (J _ (or_intror (or_intror (or_intror (or_introl eq_refl)))))). cbn [bind].
  destruct (f_ref g); reflexivity.
Qed.
