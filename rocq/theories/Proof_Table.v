(** Proof_Table.v -- the symbol table refines a finite map. *)
From Coq Require Import Permutation Znumtheory.
From Verif Require Import Base Proof_Base Model_Opcode Model_SymbolTable Spec_Isa Spec_Text Spec_Asm
  Spec_Table Proof_Prime.

(** ** Lists of slots *)
Fixpoint pairs (l : list (option Symbol)) : list (text * Z) :=
  match l with
  | [] => []
  | None :: l' => pairs l'
  | Some s :: l' => (sym_label s, sym_value s) :: pairs l'
  end.

Lemma pairs_length : forall l, (List.length (pairs l) <= List.length l)%nat.
Proof. induction l as [|[s|] l IH]; cbn; lia. Qed.

Lemma pairs_free : forall l, (List.length (pairs l) < List.length l)%nat ->
  exists i, nth_error l i = Some None /\ (i < List.length l)%nat.
Proof.
  induction l as [|[s|] l IH]; cbn; intro H; try lia.
  - destruct IH as (i & E & L); [lia|]. exists (S i). split; [exact E|lia].
  - exists 0%nat. split; [reflexivity|lia].
Qed.

Lemma pairs_in : forall l s i, nth_error l i = Some (Some s) -> In (sym_label s, sym_value s) (pairs l).
Proof.
  induction l as [|[t|] l IH]; intros s [|i] H; cbn in *; try discriminate; eauto.
  injection H as ->. auto.
Qed.

Lemma pairs_upd : forall l i s, nth_error l i = Some None ->
  Permutation (pairs (upd l i (Some s))) ((sym_label s, sym_value s) :: pairs l).
Proof.
  induction l as [|[t|] l IH]; intros [|i] s H; cbn in *; try discriminate; auto.
  rewrite (IH i s H). apply perm_swap.
Qed.

Lemma pairs_repeat : forall n, pairs (repeat None n) = [].
Proof. induction n; cbn; auto. Qed.

(** ** Slots *)
Section Slots.
Variables (l : list (option Symbol)) (size : Z).
Hypothesis size_pos : 0 < size.
Hypothesis size_len : List.length l = Z.to_nat size.

Definition slot (h : Z) (k : Z) : option Symbol :=
  match nth_error l (Z.to_nat ((h + k) mod size)) with Some o => o | None => None end.

Lemma slot_get : forall h, 0 <= h < size -> get l h = Ret (slot h 0).
Proof.
  intros h H. destruct (get_in _ l h) as (a & E & N); [rewrite size_len; lia|].
  rewrite E. unfold slot. rewrite Z.add_0_r, Z.mod_small by lia. rewrite N. reflexivity.
Qed.

Lemma slot_shift : forall h k, 0 <= k -> slot ((h + 1) mod size) k = slot h (k + 1).
Proof.
  intros h k Hk. unfold slot. rewrite Zplus_mod_idemp_l.
  replace (h + 1 + k) with (h + (k + 1)) by lia. reflexivity.
Qed.

Lemma rem_mod : forall h, 0 <= h -> Z.rem (h + 1) size = (h + 1) mod size.
Proof. intros. apply Z.rem_mod_nonneg; lia. Qed.

Lemma probe_free_spec : forall k fuel h, 0 <= h < size -> (k <= fuel)%nat ->
  (forall j, 0 <= j < Z.of_nat k -> slot h j <> None) -> slot h (Z.of_nat k) = None ->
  probe_free fuel l size h = Ret ((h + Z.of_nat k) mod size).
Proof.
  induction k as [|k IH]; intros fuel h Hh Hf Ho Hn.
  - assert (E : get l h = Ret None) by (rewrite slot_get by auto; cbn in Hn; rewrite Hn; reflexivity).
    destruct fuel; cbn [probe_free]; rewrite E; cbn [bind]; cbn; rewrite Z.add_0_r, Z.mod_small by lia; reflexivity.
  - destruct fuel as [|fuel]; [lia|]. cbn [probe_free]. rewrite slot_get by auto.
    destruct (slot h 0) eqn:E; [|exfalso; apply (Ho 0); [lia|exact E]]. cbn [bind].
    rewrite rem_mod by lia.
    rewrite IH.
    + f_equal. rewrite Zplus_mod_idemp_l. f_equal. lia.
    + apply Z.mod_pos_bound. lia.
    + lia.
    + intros j Hj. rewrite slot_shift by lia. apply Ho. lia.
    + rewrite slot_shift by lia. replace (Z.of_nat k + 1) with (Z.of_nat (S k)) by lia. exact Hn.
Qed.

(** the first free slot *)
Lemma first_free_aux : forall h n, slot h (Z.of_nat n) = None ->
  exists k, (k <= n)%nat /\ slot h (Z.of_nat k) = None /\
            forall j, 0 <= j < Z.of_nat k -> slot h j <> None.
Proof.
  intros h. induction n as [n IH] using lt_wf_ind. intro H.
  assert ((exists j, (j < n)%nat /\ slot h (Z.of_nat j) = None) \/
          (forall j, (j < n)%nat -> slot h (Z.of_nat j) <> None)) as [(j & Lj & Ej)|N].
  { clear IH H. induction n as [|n IHn]; [right; intros; lia|].
    destruct IHn as [(j & Lj & Ej)|N]; [left; exists j; split; auto; lia|].
    destruct (slot h (Z.of_nat n)) eqn:E.
    - right. intros j Lj. destruct (Nat.eq_dec j n) as [->|]; [congruence|apply N; lia].
    - left. exists n. split; auto. }
  - destruct (IH j Lj Ej) as (k & Lk & Hk). exists k. split; [lia|exact Hk].
  - exists n. split; [lia|]. split; auto. intros j Hj.
    rewrite <- (Z2Nat.id j) by lia. apply N. lia.
Qed.

Lemma first_free : forall h, 0 <= h < size -> (List.length (pairs l) < List.length l)%nat ->
  exists k, Z.of_nat k < size /\ slot h (Z.of_nat k) = None /\
            forall j, 0 <= j < Z.of_nat k -> slot h j <> None.
Proof.
  intros h Hh HL. destruct (pairs_free l HL) as (i & Ei & Li).
  destruct (first_free_aux h (Z.to_nat ((Z.of_nat i - h) mod size))) as (k & Lk & Hk).
  - rewrite Z2Nat.id by (apply Z.mod_pos_bound; lia). unfold slot.
    rewrite Zplus_mod_idemp_r. replace (h + (Z.of_nat i - h)) with (Z.of_nat i) by lia.
    rewrite Z.mod_small by lia. rewrite Nat2Z.id, Ei. reflexivity.
  - exists k. split; [|exact Hk].
    pose proof (Z.mod_pos_bound (Z.of_nat i - h) size). lia.
Qed.

Lemma search_hit : forall k fuel h label sym, 0 <= h < size -> (k <= fuel)%nat ->
  (forall j, 0 <= j < Z.of_nat k -> exists s, slot h j = Some s /\ sym_label s <> label) ->
  slot h (Z.of_nat k) = Some sym -> sym_label sym = label ->
  search_loop fuel l size label h = Ret (sym_value sym).
Proof.
  induction k as [|k IH]; intros fuel h label sym Hh Hf Ho Hn Hs.
  - cbn in Hn.
    destruct fuel; cbn [search_loop]; rewrite slot_get by auto; rewrite Hn; cbn [bind];
      rewrite Hs, text_eqb_refl; reflexivity.
  - destruct fuel as [|fuel]; [lia|]. cbn [search_loop]. rewrite slot_get by auto.
    destruct (Ho 0) as (s & E & N); [lia|]. rewrite E. cbn [bind].
    assert (text_eqb label (sym_label s) = false) as -> by (apply text_eqb_neq; congruence).
    rewrite rem_mod by lia. apply IH; auto.
    + apply Z.mod_pos_bound. lia.
    + lia.
    + intros j Hj. rewrite slot_shift by lia. apply Ho. lia.
    + rewrite slot_shift by lia. replace (Z.of_nat k + 1) with (Z.of_nat (S k)) by lia. exact Hn.
Qed.

Lemma search_miss : forall k fuel h label, 0 <= h < size -> (k <= fuel)%nat ->
  (forall j, 0 <= j < Z.of_nat k -> exists s, slot h j = Some s /\ sym_label s <> label) ->
  slot h (Z.of_nat k) = None ->
  search_loop fuel l size label h = Ret ERROR_SYMBOL_NOT_FOUND.
Proof.
  induction k as [|k IH]; intros fuel h label Hh Hf Ho Hn.
  - cbn in Hn.
    destruct fuel; cbn [search_loop]; rewrite slot_get by auto; rewrite Hn; reflexivity.
  - destruct fuel as [|fuel]; [lia|]. cbn [search_loop]. rewrite slot_get by auto.
    destruct (Ho 0) as (s & E & N); [lia|]. rewrite E. cbn [bind].
    assert (text_eqb label (sym_label s) = false) as -> by (apply text_eqb_neq; congruence).
    rewrite rem_mod by lia. apply IH; auto.
    + apply Z.mod_pos_bound. lia.
    + lia.
    + intros j Hj. rewrite slot_shift by lia. apply Ho. lia.
    + rewrite slot_shift by lia. replace (Z.of_nat k + 1) with (Z.of_nat (S k)) by lia. exact Hn.
Qed.
End Slots.

(** ** The array represents the map [e] *)
Record repr (l : list (option Symbol)) (size : Z) (e : env) : Prop := {
  r_pos : 0 < size;
  r_len : List.length l = Z.to_nat size;
  r_nodup : NoDup (map fst e);
  r_perm : Permutation (pairs l) e;
  r_probe : forall n v, In (n, v) e ->
    exists k, 0 <= k < size /\ slot l size (djb2_hash n mod size) k = Some (mkSym n v) /\
      forall j, 0 <= j < k -> slot l size (djb2_hash n mod size) j <> None }.

Lemma repr_empty : forall size, 0 < size -> repr (repeat None (Z.to_nat size)) size [].
Proof.
  intros size H. constructor; auto.
  - apply repeat_length.
  - constructor.
  - rewrite pairs_repeat. constructor.
  - intros n v [].
Qed.

Lemma repr_permutation : forall l size e e', Permutation e e' -> repr l size e -> repr l size e'.
Proof.
  intros l size e e' P [H1 H2 H3 H4 H5]. constructor; auto.
  - apply (Permutation_NoDup (Permutation_map fst P)). exact H3.
  - rewrite H4. exact P.
  - intros n v Hin. apply H5. apply (Permutation_in _ (Permutation_sym P) Hin).
Qed.

Lemma repr_room : forall l size e, repr l size e -> Z.of_nat (List.length e) < size ->
  (List.length (pairs l) < List.length l)%nat.
Proof.
  intros l size e [H1 H2 H3 H4 H5] L. rewrite (Permutation_length H4), H2. lia.
Qed.

Lemma hash_range : forall n size, 0 < size -> 0 <= djb2_hash n mod size < size.
Proof. intros. apply Z.mod_pos_bound. auto. Qed.

(** a slot that was free becomes occupied: the others do not change *)
Lemma slot_upd : forall l size h k i s, 0 < size -> nth_error l i = Some None ->
  slot (upd l i (Some s)) size h k = slot l size h k \/
  (slot l size h k = None /\ slot (upd l i (Some s)) size h k = Some s).
Proof.
  intros l size h k i s Hs Hi. unfold slot.
  destruct (Nat.eq_dec (Z.to_nat ((h + k) mod size)) i) as [E|N].
  - right. rewrite E, Hi. split; auto. rewrite nth_upd_same; auto.
    apply nth_error_Some. congruence.
  - left. rewrite nth_upd_other by auto. reflexivity.
Qed.

Lemma repr_insert : forall l size e n v, repr l size e -> Z.of_nat (List.length e) < size ->
  ~ In n (map fst e) ->
  exists h, probe_free (Z.to_nat size) l size (djb2_hash n mod size) = Ret h /\
    exists l', put l h (Some (mkSym n v)) = Ret l' /\ repr l' size ((n, v) :: e).
Proof.
  intros l size e n v R L N. pose proof (repr_room _ _ _ R L) as Room.
  destruct R as [H1 H2 H3 H4 H5].
  destruct (first_free l size H1 H2 (djb2_hash n mod size) (hash_range n size H1) Room)
    as (k & Lk & Ek & Ok).
  set (h := (djb2_hash n mod size + Z.of_nat k) mod size).
  assert (Hh : 0 <= h < size) by (apply Z.mod_pos_bound; auto).
  exists h. split.
  { apply (probe_free_spec l size H1 H2 k); auto using hash_range. lia. }
  exists (upd l (Z.to_nat h) (Some (mkSym n v))). split.
  { apply put_ret. split; [lia|reflexivity]. }
  assert (Free : nth_error l (Z.to_nat h) = Some None).
  { unfold slot in Ek. fold h in Ek. destruct (nth_error l (Z.to_nat h)) eqn:E; [congruence|].
    apply nth_error_None in E. lia. }
  constructor; auto.
  - rewrite upd_length. exact H2.
  - cbn. constructor; auto.
  - rewrite (pairs_upd l _ _ Free). cbn. constructor. exact H4.
  - intros n' v' [E|Hin].
    + injection E as -> ->. exists (Z.of_nat k). split; [lia|]. split.
      * unfold slot. fold h. rewrite nth_upd_same; auto. apply nth_error_Some. congruence.
      * intros j Hj. destruct (slot_upd l size (djb2_hash n' mod size) j (Z.to_nat h) (mkSym n' v') H1 Free)
          as [-> |[_ ->]]; [apply Ok; auto|discriminate].
    + destruct (H5 n' v' Hin) as (k' & Lk' & Ek' & Ok'). exists k'. split; [auto|]. split.
      * destruct (slot_upd l size (djb2_hash n' mod size) k' (Z.to_nat h) (mkSym n v) H1 Free)
          as [-> |[C _]]; [auto|congruence].
      * intros j Hj. destruct (slot_upd l size (djb2_hash n' mod size) j (Z.to_nat h) (mkSym n v) H1 Free)
          as [-> |[_ ->]]; [apply Ok'; auto|discriminate].
Qed.

Lemma lookup_in : forall e n v, lookup e n = Some v -> In (n, v) e.
Proof.
  induction e as [|[m w] e IH]; cbn; intros n v H; [discriminate|].
  destruct (text_eqb m n) eqn:E; [|auto]. apply text_eqb_eq in E. injection H as ->. subst. auto.
Qed.

Lemma lookup_none : forall e n, lookup e n = None <-> ~ In n (map fst e).
Proof.
  induction e as [|[m w] e IH]; cbn; intros n; [tauto|].
  destruct (text_eqb m n) eqn:E.
  - apply text_eqb_eq in E. subst. split; [discriminate|]. intro H. exfalso. auto.
  - apply text_eqb_neq in E. rewrite IH. tauto.
Qed.

Lemma nodup_fst : forall (e : env) n v w, NoDup (map fst e) -> In (n, v) e -> In (n, w) e -> v = w.
Proof.
  induction e as [|[m x] e IH]; cbn; intros n v w N Hv Hw; [tauto|].
  inversion N as [|? ? Nm Ne]; subst.
  destruct Hv as [Hv|Hv], Hw as [Hw|Hw].
  - congruence.
  - injection Hv as -> ->. exfalso. apply Nm. apply (in_map fst) in Hw. exact Hw.
  - injection Hw as -> ->. exfalso. apply Nm. apply (in_map fst) in Hv. exact Hv.
  - eauto.
Qed.

Lemma repr_slot_in : forall l size e h k s, repr l size e -> slot l size h k = Some s ->
  In (sym_label s, sym_value s) e.
Proof.
  intros l size e h k s [H1 H2 H3 H4 H5] E. unfold slot in E.
  destruct (nth_error l (Z.to_nat ((h + k) mod size))) as [o|] eqn:N; [|discriminate]. subst o.
  apply pairs_in in N. apply (Permutation_in _ H4 N).
Qed.

(** scanning up to a slot: either the label is met on the way, or not *)
Lemma scan_labels : forall l size h label (k : nat),
  (forall j, 0 <= j < Z.of_nat k -> slot l size h j <> None) ->
  (exists k' s, (k' < k)%nat /\ slot l size h (Z.of_nat k') = Some s /\ sym_label s = label /\
     forall j, 0 <= j < Z.of_nat k' -> exists s, slot l size h j = Some s /\ sym_label s <> label) \/
  (forall j, 0 <= j < Z.of_nat k -> exists s, slot l size h j = Some s /\ sym_label s <> label).
Proof.
  induction k as [|k IH]; intro H.
  - right. intros. lia.
  - destruct IH as [(k' & s & L & E)|N]; [intros; apply H; lia|left; exists k', s; split; auto; lia|].
    destruct (slot l size h (Z.of_nat k)) as [s|] eqn:E; [|exfalso; apply (H (Z.of_nat k)); [lia|exact E]].
    destruct (text_dec (sym_label s) label) as [Es|Ns].
    + left. exists k, s. auto.
    + right. intros j Hj. destruct (Z.eq_dec j (Z.of_nat k)) as [->|]; [eauto|apply N; lia].
Qed.

Lemma repr_search : forall l size e n, repr l size e -> Z.of_nat (List.length e) < size ->
  search_loop (Z.to_nat size) l size n (djb2_hash n mod size) =
  Ret (match lookup e n with Some v => v | None => ERROR_SYMBOL_NOT_FOUND end).
Proof.
  intros l size e n R L. pose proof (repr_room _ _ _ R L) as Room.
  pose proof R as [H1 H2 H3 H4 H5].
  destruct (lookup e n) as [v|] eqn:E.
  - apply lookup_in in E. destruct (H5 n v E) as (k & Lk & Ek & Ok).
    destruct (scan_labels l size (djb2_hash n mod size) n (Z.to_nat k)) as [(k' & s & Lk' & Es & En & On)|N].
    { intros j Hj. apply Ok. lia. }
    + rewrite (search_hit l size H1 H2 k' _ _ n s); auto using hash_range; [|lia].
      f_equal. pose proof (repr_slot_in _ _ _ _ _ _ R Es) as Hin. rewrite En in Hin.
      eapply nodup_fst; eauto.
    + rewrite (search_hit l size H1 H2 (Z.to_nat k) _ _ n (mkSym n v)); auto using hash_range; [lia|].
      rewrite Z2Nat.id by lia. exact Ek.
  - destruct (first_free l size H1 H2 (djb2_hash n mod size) (hash_range n size H1) Room)
      as (k & Lk & Ek & Ok).
    destruct (scan_labels l size (djb2_hash n mod size) n k Ok) as [(k' & s & Lk' & Es & En & On)|N].
    + exfalso. apply lookup_none in E. apply E. rewrite <- En.
      pose proof (repr_slot_in _ _ _ _ _ _ R Es) as Hin. apply (in_map fst) in Hin. exact Hin.
    + apply (search_miss l size H1 H2 k); auto using hash_range. lia.
Qed.

(** ** Rehashing *)
Lemma rehash_all_repr : forall new_size old new e,
  repr new new_size e ->
  NoDup (map fst (pairs old ++ e)) ->
  Z.of_nat (List.length (pairs old) + List.length e) <= new_size ->
  exists new', rehash_all new_size old new = Ret new' /\
               repr new' new_size (rev (pairs old) ++ e).
Proof.
  intros new_size. induction old as [|[s|] old IH]; intros new e R N L.
  - exists new. split; [reflexivity|exact R].
  - cbn [rehash_all rehash_one pairs] in *. cbn [List.length map app] in *.
    destruct (repr_insert new new_size e (sym_label s) (sym_value s) R) as (h & Eh & l' & El & R').
    { lia. }
    { inversion N as [|? ? Ni Nn]; subst. rewrite map_app in Ni. intro Hin. apply Ni.
      apply in_or_app. right. exact Hin. }
    rewrite Eh. cbn [bind].
    assert (Some s = Some (mkSym (sym_label s) (sym_value s))) as -> by (destruct s; reflexivity).
    rewrite El. cbn [bind].
    destruct (IH l' ((sym_label s, sym_value s) :: e) R') as (new' & En & Rn).
    + apply (Permutation_NoDup (l := map fst ((sym_label s, sym_value s) :: pairs old ++ e))).
      * apply Permutation_map. apply Permutation_middle.
      * exact N.
    + cbn [List.length]. lia.
    + exists new'. split; [exact En|]. cbn [rev]. rewrite <- app_assoc. exact Rn.
  - cbn [rehash_all rehash_one pairs] in *. cbn [bind]. apply IH; auto.
Qed.

(** ** The table *)
Record tab_ok (tab : SymbolTable) (e : env) : Prop := {
  t_repr : repr (tab_symbols tab) (tab_size tab) e;
  t_count : tab_count tab = Z.of_nat (List.length e);
  t_load : tab_count tab * 100 < 51 * tab_size tab }.

Lemma tab_ok_init : tab_ok init_symbol_table [].
Proof. constructor; [apply (repr_empty 17); lia|reflexivity|cbn; lia]. Qed.

Lemma tab_ok_room : forall tab e, tab_ok tab e -> Z.of_nat (List.length e) < tab_size tab.
Proof. intros tab e [R C L]. pose proof (r_pos _ _ _ R). lia. Qed.

Theorem search_spec : forall tab e n, tab_ok tab e ->
  search_symbol tab n = Ret (match lookup e n with Some v => v | None => ERROR_SYMBOL_NOT_FOUND end).
Proof. intros tab e n H. apply repr_search; [apply H|apply tab_ok_room, H]. Qed.

(** ** Growing *)
Lemma resize_spec : forall tab e, tab_ok tab e -> tab_size tab <= 1000000000 ->
  resize_symbols false tab = Ret None /\
  exists tab', resize_symbols true tab = Ret (Some tab') /\
    repr (tab_symbols tab') (tab_size tab') e /\ tab_count tab' = tab_count tab /\
    least_prime_above (2 * tab_size tab) (tab_size tab').
Proof.
  intros tab e [R C L] B. pose proof (r_pos _ _ _ R) as P. pose proof (r_len _ _ _ R) as Ln.
  unfold resize_symbols.
  rewrite int_of_ok by (unfold INT_MIN, INT_MAX; lia). cbn [bind].
  destruct (next_prime_defined (tab_size tab * 2)) as [p Ep]; [unfold INT_MIN, INT_MAX; lia|].
  rewrite Ep. cbn [bind negb]. split; [reflexivity|].
  assert (INT_MIN <= tab_size tab * 2) as Lo by (unfold INT_MIN; lia).
  destruct (next_prime_ret _ _ Lo Ep) as [LP _].
  destruct (Z.ltb_spec (Z.of_nat (List.length (tab_symbols tab))) (tab_size tab)); [lia|].
  rewrite <- Ln, firstn_all.
  pose proof (r_perm _ _ _ R) as PM.
  assert (2 * tab_size tab < p) as Hp by (destruct LP; lia).
  destruct (rehash_all_repr p (tab_symbols tab) (repeat None (Z.to_nat p)) []) as (new' & En & Rn).
  - apply repr_empty. lia.
  - rewrite app_nil_r. apply (Permutation_NoDup (Permutation_map fst (Permutation_sym PM))).
    apply (r_nodup _ _ _ R).
  - rewrite (Permutation_length PM). cbn. lia.
  - rewrite En. cbn [bind]. exists (mkTab new' p (tab_count tab)). split; [reflexivity|].
    cbn [tab_symbols tab_size tab_count]. split; [|split; [reflexivity|]].
    + apply (repr_permutation new' p (rev (pairs (tab_symbols tab)) ++ []) e) ; [|exact Rn].
      rewrite app_nil_r. rewrite <- Permutation_rev. exact PM.
    + replace (2 * tab_size tab) with (tab_size tab * 2) by lia. exact LP.
Qed.

(** the number of symbols the code can count *)
Definition MAX_SYMBOLS : Z := 21474836.

(** when one more symbol makes the table grow *)
Definition grows (tab : SymbolTable) : bool := 50 <? Z.quot ((tab_count tab + 1) * 100) (tab_size tab).

(** whether an insertion gets the memory it asks for *)
Definition insert_memory (rs ss : bool) (tab : SymbolTable) : bool := ss && (rs || negb (grows tab)).

Theorem insert_spec : forall rs ss tab e n v, tab_ok tab e -> ~ In n (map fst e) ->
  tab_count tab < MAX_SYMBOLS ->
  exists tab', insert_symbol rs ss tab n v =
      Ret (if insert_memory rs ss tab then SYMBOL_INSERTION_SUCCESS
           else ERROR_MEMORY_ALLOCATION_FAIL, tab') /\
    tab_ok tab' (if insert_memory rs ss tab then (n, v) :: e else e) /\
    (tab_size tab' = tab_size tab \/
     grows tab = true /\ least_prime_above (2 * tab_size tab) (tab_size tab')) /\
    (insert_memory rs ss tab = true -> grows tab = true -> tab_size tab' <> tab_size tab).
Proof.
  intros rs ss tab e n v H N Hc. pose proof H as [R C L]. pose proof (r_pos _ _ _ R) as P.
  unfold MAX_SYMBOLS in Hc.
  assert (0 <= tab_count tab) as C0 by lia.
  assert (Fin : forall tab1, repr (tab_symbols tab1) (tab_size tab1) e -> tab_count tab1 = tab_count tab ->
     (tab_count tab + 1) * 100 < 51 * tab_size tab1 ->
     exists tab',
      (hash <- probe_free (Z.to_nat (tab_size tab1)) (tab_symbols tab1) (tab_size tab1)
                         (djb2_hash n mod tab_size tab1) ;;
       symbols <- put (tab_symbols tab1) hash (Some (mkSym n v)) ;;
       count <- int_of (tab_count tab1 + 1) ;;
       Ret (SYMBOL_INSERTION_SUCCESS, mkTab symbols (tab_size tab1) count))
      = Ret (SYMBOL_INSERTION_SUCCESS, tab') /\ tab_ok tab' ((n, v) :: e) /\ tab_size tab' = tab_size tab1).
  { intros tab1 R1 C1 L1.
    destruct (repr_insert _ _ e n v R1) as (h & Eh & l' & El & R'); [lia|exact N|].
    rewrite Eh. cbn [bind]. rewrite El. cbn [bind].
    rewrite int_of_ok by (unfold INT_MIN, INT_MAX; lia). cbn [bind].
    eexists. split; [reflexivity|]. split; [|reflexivity].
    constructor; cbn [tab_symbols tab_size tab_count]; auto.
    - cbn [List.length]. lia.
    - lia. }
  assert (NG : grows tab = false -> (tab_count tab + 1) * 100 < 51 * tab_size tab).
  { unfold grows. intro G. apply Z.ltb_ge in G.
    rewrite Z.quot_div_nonneg in G by lia.
    pose proof (Z.mul_succ_div_gt ((tab_count tab + 1) * 100) (tab_size tab) P) as D.
    pose proof (Z.mul_le_mono_nonneg_l (Z.succ ((tab_count tab + 1) * 100 / tab_size tab)) 51 (tab_size tab)). lia. }
  assert (GR : grows tab = true -> tab_size tab <= 1000000000).
  { unfold grows. intro G. apply Z.ltb_lt in G.
    rewrite Z.quot_div_nonneg in G by lia.
    pose proof (Z.mul_div_le ((tab_count tab + 1) * 100) (tab_size tab) P) as D.
    pose proof (Z.mul_le_mono_nonneg_l 51 ((tab_count tab + 1) * 100 / tab_size tab) (tab_size tab)). lia. }
  assert (EQ : insert_symbol rs ss tab n v =
    (resized <- (if grows tab then resize_symbols rs tab else Ret (Some tab)) ;;
     match resized with
     | None => Ret (ERROR_MEMORY_ALLOCATION_FAIL, tab)
     | Some tab =>
       if negb ss then Ret (ERROR_MEMORY_ALLOCATION_FAIL, tab)
       else
       hash <- probe_free (Z.to_nat (tab_size tab)) (tab_symbols tab) (tab_size tab)
                         (djb2_hash n mod tab_size tab) ;;
       symbols <- put (tab_symbols tab) hash (Some (mkSym n v)) ;;
       count <- int_of (tab_count tab + 1) ;;
       Ret (SYMBOL_INSERTION_SUCCESS, mkTab symbols (tab_size tab) count) end)).
  { unfold insert_symbol.
    rewrite int_of_ok by (unfold INT_MIN, INT_MAX; lia). cbn [bind].
    rewrite int_of_ok by (unfold INT_MIN, INT_MAX; lia). reflexivity. }
  rewrite EQ. clear EQ. unfold insert_memory.
  destruct (grows tab) eqn:G.
  - destruct (resize_spec tab e H (GR eq_refl)) as (RF & tab1 & RT & R1 & C1 & LP).
    pose proof LP as [Gt _].
    destruct rs; rewrite ?RT, ?RF; cbn [bind orb negb andb].
    + destruct ss; cbn [andb negb].
      * destruct (Fin tab1 R1 C1) as (tab' & Ef & Ok & Sz); [lia|].
        exists tab'. rewrite Ef, Sz. split; [reflexivity|]. split; [exact Ok|].
        split; [right; auto|intros; lia].
      * exists tab1. split; [reflexivity|]. split; [constructor; auto; lia|].
        split; [right; auto|discriminate].
    + rewrite andb_false_r. exists tab. split; [reflexivity|]. split; [exact H|].
      split; [left; auto|discriminate].
  - cbn [bind negb]. rewrite orb_true_r, andb_true_r.
    destruct ss; cbn [negb].
    + destruct (Fin tab R eq_refl (NG eq_refl)) as (tab' & Ef & Ok & Sz).
      exists tab'. rewrite Ef. split; [reflexivity|]. split; [exact Ok|]. split; [left; auto|discriminate].
    + exists tab. split; [reflexivity|]. split; [exact H|]. split; [left; auto|discriminate].
Qed.

(** beyond that number of symbols the load computation overflows *)
Lemma insert_overflow : forall tab e n v rs ss, tab_ok tab e -> MAX_SYMBOLS <= tab_count tab ->
  insert_symbol rs ss tab n v = Undef UbOverflow.
Proof.
  intros tab e n v rs ss [R C L] H. unfold MAX_SYMBOLS in H. unfold insert_symbol, int_of.
  destruct (in_range INT_MIN (tab_count tab + 1) INT_MAX) eqn:E; [|reflexivity]. cbn [bind].
  destruct (in_range INT_MIN ((tab_count tab + 1) * 100) INT_MAX) eqn:E2; [|reflexivity].
  apply in_range_spec in E2. unfold INT_MIN, INT_MAX in *. lia.
Qed.
