(** Proof_HeapTable.v -- the symbol table in the heap of Model_Memory.v does what
    Model_SymbolTable.v says. *)
From Coq Require Import Permutation.
From Verif Require Import Base Model_Opcode Model_Lexer Model_SymbolTable Model_ForwardRef Model_Memory
  Proof_Base Proof_Prime Proof_Heap.

(** a slot of the array: the address of the struct, the address of the label, the symbol *)
Notation slot := (option (nat * nat * Symbol)) (only parsing).
Definition slot_ptr (g : slot) : ptr := option_map (fun x => fst (fst x)) g.
Definition slot_sym (g : slot) : option Symbol := option_map snd g.
Definition slot_cells (g : slot) : list block :=
  match g with
  | None => []
  | Some (a, b, s) =>
    [(a, CSymbol (Some b) (sym_value s)); (b, CStr (List.length (sym_label s) + 1) (sym_label s))]
  end.
Definition table_cells (a s : nat) (gs : list slot) (size count : Z) : list block :=
  (a, CSymtab (Some s) size count) :: (s, CArray (map slot_ptr gs)) :: flat_map slot_cells gs.
(** the table as a value *)
Definition table (gs : list slot) (size count : Z) : SymbolTable := mkTab (map slot_sym gs) size count.

Lemma get_map : forall (A B : Type) (f : A -> B) l i,
  get (map f l) i = match get l i with Ret x => Ret (f x) | Undef u => Undef u | Diverge => Diverge end.
Proof.
  intros A B f l i. unfold get. destruct (i <? 0); [reflexivity|].
  rewrite nth_error_map. destruct (nth_error l (Z.to_nat i)); reflexivity.
Qed.
Lemma upd_map : forall (A B : Type) (f : A -> B) l i x, upd (map f l) i (f x) = map f (upd l i x).
Proof.
  intros A B f. induction l as [|y l IH]; intros [|i] x; cbn [map upd]; try reflexivity.
  rewrite IH. reflexivity.
Qed.
Lemma upd_length' : forall (A : Type) (l : list A) i x, List.length (upd l i x) = List.length l.
Proof. intros A. induction l as [|y l IH]; intros [|i] x; cbn [upd List.length]; auto. Qed.

Lemma probe_same : forall fuel gs size hash,
  probe_free_h fuel (map slot_ptr gs) size hash = probe_free fuel (map slot_sym gs) size hash.
Proof.
  induction fuel as [|fuel IH]; intros gs size hash; cbn [probe_free_h probe_free];
    rewrite !get_map; destruct (get gs hash) as [[[[a b] s]|]| |]; cbn; try reflexivity.
  apply IH.
Qed.
Lemma probe_none : forall fuel gs size hash k, probe_free fuel (map slot_sym gs) size hash = Ret k ->
  0 <= k /\ nth_error gs (Z.to_nat k) = Some None.
Proof.
  induction fuel as [|fuel IH]; intros gs size hash k H; cbn [probe_free] in H;
    rewrite get_map in H; destruct (get gs hash) as [g| |] eqn:E; cbn [bind] in H; try discriminate.
  all: unfold get in E; destruct (Z.ltb_spec hash 0); try discriminate;
    destruct (nth_error gs (Z.to_nat hash)) as [g'|] eqn:N; try discriminate; injection E as ->.
  all: destruct g as [[[a b] s]|]; cbn [slot_sym option_map] in H; try discriminate.
  - injection H as <-. auto.
  - eapply IH. exact H.
  - injection H as <-. auto.
Qed.

Lemma upd_cells : forall gs k g, nth_error gs k = Some None ->
  Permutation (flat_map slot_cells (upd gs k g)) (slot_cells g ++ flat_map slot_cells gs).
Proof.
  induction gs as [|x gs IH]; intros [|k] g H; cbn [nth_error upd flat_map] in *; try discriminate.
  - injection H as ->. reflexivity.
  - etransitivity; [apply Permutation_app_head; apply IH; exact H|]. perm.
Qed.

Lemma put_ret : forall (A : Type) (l : list A) i x r, put l i x = Ret r ->
  0 <= i /\ (Z.to_nat i < List.length l)%nat /\ r = upd l (Z.to_nat i) x.
Proof.
  intros A l i x r H. unfold put in H. destruct (in_range 0 i (Z.of_nat (List.length l) - 1)) eqn:E; [|discriminate].
  apply in_range_spec in E. injection H as <-. repeat split; lia.
Qed.
Lemma put_same : forall (A B : Type) (f : A -> B) l i x r, put (map f l) i x = Ret r ->
  forall (C : Type) (g : A -> C) y, put (map g l) i y = Ret (upd (map g l) (Z.to_nat i) y).
Proof.
  intros A B f l i x r H C g y. unfold put in *. rewrite map_length in *.
  destruct (in_range 0 i (Z.of_nat (List.length l) - 1)); [reflexivity|discriminate].
Qed.

(** ** init, destroy *)
Lemma init_symtab_spec : forall orc {w} h l, heap_is orc w h l ->
  exists p h', init_symbol_table_h orc h = Ret (p, h') /\
  ((exists a s, p = Some a /\ heap_is orc w h' (table_cells a s (repeat None 17) 17 0 ++ l)) \/
   (p = None /\ exists leak, nofile leak /\ heap_is orc true h' (leak ++ l))).
Proof.
  intros orc w h l H. unfold init_symbol_table_h.
  destruct (malloc_spec orc CUninit h l H) as [(a & h1 & -> & H1)|(h1 & -> & H1)]; cbn [is_null].
  2:{ eexists _, _. split; [reflexivity|]. right. split; [reflexivity|]. exists []. split; [constructor|]. exact H1. }
  destruct (malloc_spec orc (CArray (repeat None 17)) h1 _ H1) as [(b & h2 & -> & H2)|(h2 & -> & H2)];
    cbn [is_null].
  2:{ eexists _, _. split; [reflexivity|]. right. split; [reflexivity|].
      exists [(a, CUninit)]. split; [nofile|]. exact H2. }
  destruct (store_at h2 _ a CUninit (CSymtab (Some b) SYMTAB_BASE_SIZE 0)
    ((b, CArray (repeat None 17)) :: l) H2) as (h3 & -> & H3); [perm|]. cbn [bind].
  eexists _, _. split; [reflexivity|]. left. exists a, b. split; [reflexivity|]. exact H3.
Qed.

Lemma destroy_symbol_spec : forall {orc w} h l g r, heap_is orc w h l -> Permutation l (slot_cells g ++ r) ->
  exists h', destroy_symbol_h h (slot_ptr g) = Ret h' /\ heap_is orc w h' r.
Proof.
  intros orc w h l [[[a b] s]|] r H P; apply (heap_perm _ _ _ H) in P; unfold destroy_symbol_h;
    cbn [slot_ptr option_map is_null slot_cells app fst] in *; [|eauto].
  unfold load_symbol. rewrite (load_spec h _ a (CSymbol (Some b) (sym_value s)) P) by (left; reflexivity).
  cbn [bind is_null].
  destruct (free_at h _ b (CStr (List.length (sym_label s) + 1) (sym_label s))
    ((a, CSymbol (Some b) (sym_value s)) :: r) P) as (h1 & -> & H1); [perm|]. cbn [bind].
  eapply free_spec. exact H1.
Qed.

Lemma destroy_symbols_spec : forall {orc w} todo done a s size count h l r,
  heap_is orc w h l ->
  Permutation l ((a, CSymtab (Some s) size count) ::
      (s, CArray (map slot_ptr (done ++ todo))) :: flat_map slot_cells todo ++ r) ->
  exists h', destroy_symbols_h (List.length todo) (Z.of_nat (List.length done)) (Some a) h = Ret h' /\
    heap_is orc w h' ((a, CSymtab (Some s) size count) :: (s, CArray (map slot_ptr (done ++ todo))) :: r).
Proof.
  intros orc w. induction todo as [|t todo IH]; intros done a s size count h l r H P; apply (heap_perm _ _ _ H) in P;
    cbn [List.length destroy_symbols_h].
  - eexists. split; [reflexivity|]. cbn [flat_map app] in P. exact P.
  - unfold load_symtab. rewrite (load_spec h _ a (CSymtab (Some s) size count) P) by (left; reflexivity).
    cbn [bind]. unfold load_array.
    rewrite (load_spec h _ s (CArray (map slot_ptr (done ++ t :: todo))) P) by (right; left; reflexivity).
    cbn [bind]. rewrite (get_nth _ _ _ (slot_ptr t)).
    2:{ rewrite map_app, nth_error_app2; rewrite map_length; [|lia]. rewrite Nat.sub_diag. reflexivity. }
    cbn [bind].
    destruct (destroy_symbol_spec h _ t
      ((a, CSymtab (Some s) size count) :: (s, CArray (map slot_ptr (done ++ t :: todo))) ::
       flat_map slot_cells todo ++ r) P) as (h1 & -> & H1).
    { cbn [flat_map]. perm. }
    cbn [bind]. destruct (IH (done ++ [t]) a s size count h1 _ r H1) as (h2 & E & H2).
    { rewrite <- app_assoc. cbn [app]. reflexivity. }
    rewrite app_length, Nat2Z.inj_add in E. cbn [List.length] in E. change (Z.of_nat 1) with 1 in E.
    rewrite E. eexists. split; [reflexivity|]. rewrite <- app_assoc in H2. exact H2.
Qed.

Lemma destroy_symtab_spec : forall {orc w} h l a s gs size count r, heap_is orc w h l -> Z.of_nat (List.length gs) = size ->
  Permutation l (table_cells a s gs size count ++ r) ->
  exists h', destroy_symbol_table_h h (Some a) = Ret h' /\ heap_is orc w h' r.
Proof.
  intros orc w h l a s gs size count r H L P. assert (Q := heap_perm _ _ _ H P).
  unfold destroy_symbol_table_h. cbn [is_null]. unfold load_symtab.
  rewrite (load_spec h _ a (CSymtab (Some s) size count) Q) by (left; reflexivity). cbn [bind is_null].
  destruct (destroy_symbols_spec gs [] a s size count h l r H) as (h1 & E & H1).
  { etransitivity; [exact P|]. unfold table_cells. perm. }
  rewrite <- L, Nat2Z.id. change (Z.of_nat (List.length (@nil slot))) with 0 in E. rewrite E. cbn [bind].
  destruct (free_at h1 _ s (CArray (map slot_ptr gs)) ((a, CSymtab (Some s) size count) :: r) H1)
    as (h2 & -> & H2); [cbn [app]; perm|]. cbn [bind]. eapply free_spec. exact H2.
Qed.

(** ** reading the table *)
Lemma mapM_map : forall (A B C : Type) (f : B -> M C) (g : A -> B) (k : A -> C) l,
  (forall x, In x l -> f (g x) = Ret (k x)) -> mapM f (map g l) = Ret (map k l).
Proof.
  intros A B C f g k. induction l as [|x l IH]; intros H; [reflexivity|]. cbn [map mapM].
  rewrite (H x (or_introl eq_refl)). cbn [bind]. rewrite IH; [reflexivity|]. intros y I. apply H. right. exact I.
Qed.
Lemma read_symtab_spec : forall {orc w} h l a s gs size count r, heap_is orc w h l ->
  Permutation l (table_cells a s gs size count ++ r) ->
  read_symtab h (Some a) = Ret (table gs size count).
Proof.
  intros orc w h l a s gs size count r H P. apply (heap_perm _ _ _ H) in P. unfold read_symtab, load_symtab.
  rewrite (load_spec h _ a (CSymtab (Some s) size count) P) by (left; reflexivity). cbn [bind].
  unfold load_array. rewrite (load_spec h _ s (CArray (map slot_ptr gs)) P) by (right; left; reflexivity).
  cbn [bind]. rewrite (mapM_map _ _ _ (read_slot h) slot_ptr slot_sym); [reflexivity|].
  intros [[[b c] y]|] I; [|reflexivity].
  assert (J : forall z, In z (slot_cells (Some (b, c, y))) -> In z (table_cells a s gs size count ++ r)).
  { intros z Hz. apply in_or_app. left. right. right. apply in_flat_map. eauto. }
  cbn [slot_ptr option_map fst read_slot]. unfold load_symbol.
  rewrite (load_spec h _ b (CSymbol (Some c) (sym_value y)) P) by (apply J; left; reflexivity). cbn [bind].
  unfold load_str. rewrite (load_spec h _ c (CStr (List.length (sym_label y) + 1) (sym_label y)) P)
    by (apply J; right; left; reflexivity).
  cbn [bind]. destruct y; reflexivity.
Qed.

(** ** resize_symbols *)
Lemma rehash_one_spec : forall {orc w} h l b g ngs n r nl,
  heap_is orc w h l -> Permutation l ((b, CArray (map slot_ptr ngs)) :: slot_cells g ++ r) ->
  rehash_one n (map slot_sym ngs) (slot_sym g) = Ret nl ->
  exists h' ngs', rehash_one_h h (Some b) n (slot_ptr g) = Ret h' /\ nl = map slot_sym ngs' /\
    List.length ngs' = List.length ngs /\
    Permutation (flat_map slot_cells ngs') (slot_cells g ++ flat_map slot_cells ngs) /\
    heap_is orc w h' ((b, CArray (map slot_ptr ngs')) :: slot_cells g ++ r).
Proof.
  intros orc w h l b [[[a c] y]|] ngs n r nl H P R; apply (heap_perm _ _ _ H) in P; unfold rehash_one_h;
    cbn [slot_ptr slot_sym option_map is_null slot_cells app fst snd rehash_one] in *.
  2:{ injection R as <-. exists h, ngs. auto. }
  apply bind_ret in R. destruct R as (k & Hk & Hp). destruct (probe_none _ _ _ _ _ Hk) as [K0 KN].
  unfold load_symbol. rewrite (load_spec h _ a (CSymbol (Some c) (sym_value y)) P) by (right; left; reflexivity).
  cbn [bind]. unfold load_str.
  rewrite (load_spec h _ c (CStr (List.length (sym_label y) + 1) (sym_label y)) P) by (right; right; left; reflexivity).
  cbn [bind]. unfold load_array. rewrite (load_spec h _ b (CArray (map slot_ptr ngs)) P) by (left; reflexivity).
  cbn [bind]. rewrite probe_same, Hk. cbn [bind].
  rewrite (put_same _ _ _ _ _ _ _ Hp _ slot_ptr (Some a)). cbn [bind].
  apply put_ret in Hp. destruct Hp as (_ & _ & ->).
  destruct (store_spec h _ b _ (CArray (upd (map slot_ptr ngs) (Z.to_nat k) (Some a))) P) as (h1 & -> & H1).
  exists h1, (upd ngs (Z.to_nat k) (Some (a, c, y))). split; [reflexivity|]. split; [|split; [|split]].
  - rewrite <- upd_map. reflexivity.
  - apply upd_length'.
  - apply upd_cells. exact KN.
  - rewrite <- upd_map. exact H1.
Qed.

Lemma rehash_all_spec : forall {orc w} todo done a s size count b ngs n h l r nl,
  heap_is orc w h l ->
  Permutation l ((b, CArray (map slot_ptr ngs)) :: (a, CSymtab (Some s) size count) ::
      (s, CArray (map slot_ptr (done ++ todo))) :: flat_map slot_cells todo ++ r) ->
  rehash_all n (map slot_sym todo) (map slot_sym ngs) = Ret nl ->
  exists h' ngs',
    rehash_all_h (List.length todo) (Z.of_nat (List.length done)) (Some a) (Some b) n h = Ret h' /\
    nl = map slot_sym ngs' /\ List.length ngs' = List.length ngs /\
    Permutation (flat_map slot_cells ngs') (flat_map slot_cells todo ++ flat_map slot_cells ngs) /\
    heap_is orc w h' ((b, CArray (map slot_ptr ngs')) :: (a, CSymtab (Some s) size count) ::
      (s, CArray (map slot_ptr (done ++ todo))) :: flat_map slot_cells todo ++ r).
Proof.
  intros orc w. induction todo as [|t todo IH]; intros done a s size count b ngs n h l r nl H P R;
    assert (Q := heap_perm _ _ _ H P); cbn [List.length rehash_all_h map rehash_all] in *.
  - injection R as <-. exists h, ngs. repeat split; auto; apply Q.
  - apply bind_ret in R. destruct R as (nl1 & R1 & R2).
    unfold load_symtab. rewrite (load_spec h _ a (CSymtab (Some s) size count) Q) by (right; left; reflexivity).
    cbn [bind]. unfold load_array.
    rewrite (load_spec h _ s (CArray (map slot_ptr (done ++ t :: todo))) Q) by (right; right; left; reflexivity).
    cbn [bind]. rewrite (get_nth _ _ _ (slot_ptr t)).
    2:{ rewrite map_app, nth_error_app2; rewrite map_length; [|lia]. rewrite Nat.sub_diag. reflexivity. }
    cbn [bind].
    destruct (rehash_one_spec h l b t ngs n
      ((a, CSymtab (Some s) size count) :: (s, CArray (map slot_ptr (done ++ t :: todo))) ::
       flat_map slot_cells todo ++ r) nl1 H) as (h1 & ngs1 & -> & -> & L1 & P1 & H1); [|exact R1|].
    { etransitivity; [exact P|]. cbn [flat_map]. perm. }
    cbn [bind].
    destruct (IH (done ++ [t]) a s size count b ngs1 n h1 _ (slot_cells t ++ r) nl H1) as (h2 & ngs2 & E & -> & L2 & P2 & H2).
    { rewrite <- app_assoc. cbn [app]. perm. }
    { exact R2. }
    rewrite app_length, Nat2Z.inj_add in E. cbn [List.length] in E. change (Z.of_nat 1) with 1 in E.
    rewrite E. exists h2, ngs2. split; [reflexivity|]. split; [reflexivity|]. split; [congruence|]. split.
    + etransitivity; [exact P2|]. etransitivity; [apply Permutation_app_head; exact P1|]. cbn [flat_map]. perm.
    + eapply heap_perm; [exact H2|]. rewrite <- app_assoc. cbn [app flat_map]. perm.
Qed.

Lemma map_rep : forall (A B : Type) (f : A -> B) x n, map f (repeat x n) = repeat (f x) n.
Proof. intros. induction n; [reflexivity|]. cbn [repeat map]. congruence. Qed.
Lemma repeat_cells : forall n, flat_map slot_cells (repeat None n) = [].
Proof. induction n; [reflexivity|]. cbn [repeat flat_map]. exact IHn. Qed.

(** what the operations keep: as many slots as [size] says *)
Lemma resize_spec_h : forall orc {w} h l a s gs size count r tab1,
  heap_is orc w h l -> Permutation l (table_cells a s gs size count ++ r) ->
  Z.of_nat (List.length gs) = size ->
  resize_symbols true (table gs size count) = Ret (Some tab1) ->
  exists ok h', resize_symbols_h orc h (Some a) = Ret (ok, h') /\
  ((ok = true /\ exists s' gs' size', tab1 = table gs' size' count /\
      Z.of_nat (List.length gs') = size' /\ heap_is orc w h' (table_cells a s' gs' size' count ++ r)) \/
   (ok = false /\ heap_is orc true h' (table_cells a s gs size count ++ r))).
Proof.
  intros orc w h l a s gs size count r tab1 H P L R. apply (heap_perm _ _ _ H) in P.
  unfold resize_symbols in R. cbn [table tab_size tab_symbols tab_count negb] in R.
  apply bind_ret in R. destruct R as (tw & T1 & R). apply bind_ret in R. destruct R as (ns & T2 & R).
  rewrite map_length in R. destruct (Z.ltb_spec (Z.of_nat (List.length gs)) size); [lia|].
  apply bind_ret in R. destruct R as (nl & R1 & R2). injection R2 as <-.
  rewrite firstn_all2 in R1 by (rewrite map_length; lia).
  unfold resize_symbols_h, load_symtab.
  rewrite (load_spec h _ a (CSymtab (Some s) size count) P) by (left; reflexivity). cbn [bind].
  rewrite T1. cbn [bind]. rewrite T2. cbn [bind].
  destruct (malloc_spec orc (CArray (repeat None (Z.to_nat ns))) h _ P) as [(b & h1 & -> & H1)|(h1 & -> & H1)];
    cbn [is_null].
  2:{ eexists _, _. split; [reflexivity|]. right. auto. }
  destruct (rehash_all_spec gs [] a s size count b (repeat None (Z.to_nat ns)) ns h1 _ r nl H1)
    as (h2 & ngs & E & -> & LN & PN & H2).
  { rewrite map_rep. change (slot_ptr None) with (@None nat). cbn [app]. unfold table_cells. perm. }
  { rewrite map_rep. exact R1. }
  change (Z.of_nat (List.length (@nil slot))) with 0 in E. replace (Z.to_nat size) with (List.length gs) by lia. rewrite E. cbn [bind].
  rewrite (load_spec h2 _ a (CSymtab (Some s) size count) H2) by (right; left; reflexivity). cbn [bind].
  destruct (free_at h2 _ s (CArray (map slot_ptr gs)) ((b, CArray (map slot_ptr ngs)) ::
     (a, CSymtab (Some s) size count) :: flat_map slot_cells gs ++ r) H2) as (h3 & -> & H3); [cbn [app]; perm|].
  cbn [bind].
  destruct (store_at h3 _ a (CSymtab (Some s) size count) (CSymtab (Some b) ns count)
     ((b, CArray (map slot_ptr ngs)) :: flat_map slot_cells gs ++ r) H3) as (h4 & -> & H4); [perm|].
  cbn [bind]. eexists _, _. split; [reflexivity|]. left. split; [reflexivity|].
  exists b, ngs, ns. split; [reflexivity|]. split.
  - rewrite LN, repeat_length.
    apply int_of_ret in T1. destruct T1 as [T1 ->].
    destruct (next_prime_ret (size * 2) ns) as [[K _] _]; [lia|exact T2|]. lia.
  - eapply heap_perm; [exact H4|]. unfold table_cells. cbn [app].
    do 2 apply perm_skip. apply Permutation_app_tail. rewrite repeat_cells, app_nil_r in PN. symmetry. exact PN.
Qed.

(** ** insert_symbol *)
Lemma init_symbol_spec : forall orc {w} h l label v, heap_is orc w h l ->
  exists p h', init_symbol_h orc h label v = Ret (p, h') /\
  ((exists a b, p = Some a /\ heap_is orc w h' (slot_cells (Some (a, b, mkSym label v)) ++ l)) \/
   (p = None /\ exists leak, nofile leak /\ heap_is orc true h' (leak ++ l))).
Proof.
  intros orc w h l label v H. unfold init_symbol_h.
  destruct (malloc_spec orc CUninit h l H) as [(a & h1 & -> & H1)|(h1 & -> & H1)]; cbn [is_null].
  2:{ eexists _, _. split; [reflexivity|]. right. split; [reflexivity|]. exists []. split; [constructor|]. exact H1. }
  destruct (malloc_spec orc (CStr (List.length label + 1) []) h1 _ H1) as [(b & h2 & -> & H2)|(h2 & -> & H2)];
    cbn [is_null].
  2:{ eexists _, _. split; [reflexivity|]. right. split; [reflexivity|].
      exists [(a, CUninit)]. split; [nofile|]. exact H2. }
  destruct (fill_at h2 _ b (List.length label + 1) label ((a, CUninit) :: l) H2) as (h3 & -> & H3);
    [reflexivity|lia|]. cbn [bind].
  destruct (store_at h3 _ a CUninit (CSymbol (Some b) v) ((b, CStr (List.length label + 1) label) :: l) H3)
    as (h4 & -> & H4); [perm|]. cbn [bind].
  eexists _, _. split; [reflexivity|]. left. exists a, b. split; [reflexivity|]. exact H4.
Qed.

Lemma insert_spec_h : forall orc {w} h l a s gs size count r label v c tab1,
  heap_is orc w h l -> Permutation l (table_cells a s gs size count ++ r) ->
  Z.of_nat (List.length gs) = size ->
  insert_symbol true true (table gs size count) label v = Ret (c, tab1) ->
  exists c' h', insert_symbol_h orc h (Some a) label v = Ret (c', h') /\
  exists s' gs' size' count', Z.of_nat (List.length gs') = size' /\
    ((c' = c /\ tab1 = table gs' size' count' /\ heap_is orc w h' (table_cells a s' gs' size' count' ++ r)) \/
     (c' = ERROR_MEMORY_ALLOCATION_FAIL /\
      exists leak, nofile leak /\ heap_is orc true h' (table_cells a s' gs' size' count' ++ leak ++ r))).
Proof.
  intros orc w h l a s gs size count r label v c tab1 H P L R. apply (heap_perm _ _ _ H) in P.
  unfold insert_symbol in R. cbn [table tab_size tab_symbols tab_count negb] in R.
  apply bind_ret in R. destruct R as (c1 & T1 & R). apply bind_ret in R. destruct R as (sc & T2 & R).
  unfold insert_symbol_h, load_symtab.
  rewrite (load_spec h _ a (CSymtab (Some s) size count) P) by (left; reflexivity). cbn [bind].
  rewrite T1. cbn [bind]. rewrite T2. cbn [bind].
  apply bind_ret in R. destruct R as ([tab|] & T3 & R).
  2:{ exfalso. destruct (50 <? sc ÷ size); [|discriminate]. unfold resize_symbols in T3.
      apply bind_ret in T3. destruct T3 as (? & _ & T3). apply bind_ret in T3. destruct T3 as (? & _ & T3).
      cbn [negb] in T3. match type of T3 with (if ?b then _ else _) = _ => destruct b end; [discriminate|].
      apply bind_ret in T3. destruct T3 as (? & _ & T3). discriminate. }
  apply bind_ret in R. destruct R as (k & R1 & R). apply bind_ret in R. destruct R as (syms & R2 & R).
  apply bind_ret in R. destruct R as (cn & R3 & R). injection R as <- <-.
  assert (X : exists ok h1, (if 50 <? sc ÷ size then resize_symbols_h orc h (Some a) else Ret (true, h)) = Ret (ok, h1) /\
    ((ok = true /\ exists s' gs' size', tab = table gs' size' count /\
      Z.of_nat (List.length gs') = size' /\ heap_is orc w h1 (table_cells a s' gs' size' count ++ r)) \/
     (ok = false /\ heap_is orc true h1 (table_cells a s gs size count ++ r)))).
  { destruct (50 <? sc ÷ size).
    - eapply resize_spec_h; [exact P|reflexivity|exact L|exact T3].
    - eexists _, _. split; [reflexivity|]. left. split; [reflexivity|]. injection T3 as <-.
      exists s, gs, size. auto. }
  destruct X as (ok & h1 & -> & [(-> & s1 & gs1 & size1 & -> & L1 & H1)|(-> & H1)]); cbn [bind negb].
  2:{ eexists _, _. split; [reflexivity|]. exists s, gs, size, count. split; [exact L|].
      right. split; [reflexivity|]. exists []. split; [constructor|exact H1]. }
  destruct (init_symbol_spec orc h1 _ label v H1) as (p & h2 & -> & [(x & y & -> & H2)|(-> & leak & NF & H2)]);
    cbn [bind is_null].
  2:{ eexists _, _. split; [reflexivity|]. exists s1, gs1, size1, count. split; [exact L1|].
      right. split; [reflexivity|]. exists leak. split; [exact NF|]. eapply heap_perm; [exact H2|]. perm. }
  cbn [table tab_size tab_symbols tab_count] in R1, R2, R3.
  rewrite (load_spec h2 _ a (CSymtab (Some s1) size1 count) H2)
    by (apply in_or_app; right; left; reflexivity).
  cbn [bind]. unfold load_array.
  rewrite (load_spec h2 _ s1 (CArray (map slot_ptr gs1)) H2)
    by (apply in_or_app; right; right; left; reflexivity).
  cbn [bind]. rewrite probe_same, R1. cbn [bind].
  rewrite (put_same _ _ _ _ _ _ _ R2 _ slot_ptr (Some x)). cbn [bind].
  destruct (probe_none _ _ _ _ _ R1) as [K0 KN]. apply put_ret in R2. destruct R2 as (_ & _ & ->).
  set (g := Some (x, y, mkSym label v)) in *.
  destruct (store_at h2 _ s1 (CArray (map slot_ptr gs1)) (CArray (upd (map slot_ptr gs1) (Z.to_nat k) (Some x)))
    ((a, CSymtab (Some s1) size1 count) :: slot_cells g ++ flat_map slot_cells gs1 ++ r) H2)
    as (h3 & -> & H3); [unfold table_cells; perm|].
  cbn [bind]. rewrite R3. cbn [bind].
  destruct (store_at h3 _ a (CSymtab (Some s1) size1 count) (CSymtab (Some s1) size1 cn)
    ((s1, CArray (upd (map slot_ptr gs1) (Z.to_nat k) (Some x))) :: slot_cells g ++ flat_map slot_cells gs1 ++ r) H3)
    as (h4 & -> & H4); [perm|].
  cbn [bind]. eexists _, _. split; [reflexivity|].
  exists s1, (upd gs1 (Z.to_nat k) g), size1, cn. split; [rewrite upd_length'; exact L1|]. left.
  split; [reflexivity|]. split.
  - unfold table. f_equal. rewrite <- upd_map. reflexivity.
  - eapply heap_perm; [exact H4|]. unfold table_cells. rewrite <- upd_map. cbn [app slot_ptr option_map fst g].
    do 2 apply perm_skip.
    change (Some (x, y, mkSym label v)) with g.
    rewrite (upd_cells _ _ g KN). rewrite <- app_assoc. reflexivity.
Qed.
