(** Prop_Table.v -- C14, C15, C16, C21: the symbol table and the array of pending
    references, for every history of operations. *)
From Coq Require Import Znumtheory.
From Verif Require Import Base Proof_Base Model_Opcode Model_Lexer Model_SymbolTable Model_ForwardRef
  Spec_Table Spec_Isa Spec_Text Spec_Asm Proof_Prime Proof_Table Proof_Refs.

(** ** Histories of the symbol table: it starts empty and labels not inserted so far
    are inserted one by one; any of the memory allocations may fail, and then the
    insertion reports it.  [ops] are the successful insertions in order. *)
Inductive table_after : list (text * Z) -> SymbolTable -> Prop :=
| after_init : table_after [] init_symbol_table
| after_insert ops tab rs ss n v tab' :
    table_after ops tab -> ~ In n (map fst ops) ->
    insert_symbol rs ss tab n v = Ret (SYMBOL_INSERTION_SUCCESS, tab') ->
    table_after (ops ++ [(n, v)]) tab'
| after_failed ops tab rs ss n v tab' :
    table_after ops tab -> ~ In n (map fst ops) ->
    insert_symbol rs ss tab n v = Ret (ERROR_MEMORY_ALLOCATION_FAIL, tab') ->
    table_after ops tab'.

Lemma nodup_rev_fst : forall (e : env) n, In n (map fst (rev e)) <-> In n (map fst e).
Proof. intros. rewrite map_rev, <- in_rev. tauto. Qed.

Lemma insert_cases : forall rs ss tab e n v code tab', tab_ok tab e -> ~ In n (map fst e) ->
  insert_symbol rs ss tab n v = Ret (code, tab') ->
  (code = SYMBOL_INSERTION_SUCCESS /\ tab_ok tab' ((n, v) :: e)) \/
  (code = ERROR_MEMORY_ALLOCATION_FAIL /\ tab_ok tab' e).
Proof.
  intros rs ss tab e n v code tab' H N E.
  destruct (Z_lt_le_dec (tab_count tab) MAX_SYMBOLS) as [L|L].
  - destruct (insert_spec rs ss tab e n v H N L) as (t & Et & Ok & _).
    rewrite Et in E. destruct (insert_memory rs ss tab); injection E as <- <-; auto.
  - rewrite (insert_overflow tab e n v rs ss H L) in E. discriminate.
Qed.

Lemma table_after_ok : forall ops tab, table_after ops tab -> tab_ok tab (rev ops).
Proof.
  induction 1 as [|ops tab rs ss n v tab' _ IH N E|ops tab rs ss n v tab' _ IH N E].
  - apply tab_ok_init.
  - rewrite rev_app_distr. cbn [rev app].
    assert (N' : ~ In n (map fst (rev ops))) by (rewrite nodup_rev_fst; exact N).
    destruct (insert_cases _ _ _ _ _ _ _ _ IH N' E) as [[_ Ok]|[C _]]; [exact Ok|discriminate].
  - assert (N' : ~ In n (map fst (rev ops))) by (rewrite nodup_rev_fst; exact N).
    destruct (insert_cases _ _ _ _ _ _ _ _ IH N' E) as [[C _]|[_ Ok]]; [discriminate|exact Ok].
Qed.

Lemma nodup_lookup : forall (e : env) n v, NoDup (map fst e) -> In (n, v) e -> lookup e n = Some v.
Proof.
  intros e n v N Hin. destruct (lookup e n) as [w|] eqn:E.
  - apply lookup_in in E. f_equal. eapply nodup_fst; eauto.
  - exfalso. apply lookup_none in E. apply E. apply (in_map fst) in Hin. exact Hin.
Qed.

(** C14: the table is the map of the insertions made, whatever the collisions, the
    resizes and the failed insertions *)
Theorem C14_found : forall ops tab n v, table_after ops tab -> In (n, v) ops ->
  search_symbol tab n = Ret v.
Proof.
  intros ops tab n v H Hin. pose proof (table_after_ok _ _ H) as Ok.
  rewrite (search_spec _ _ n Ok). rewrite (nodup_lookup _ n v); auto.
  - apply (r_nodup _ _ _ (t_repr _ _ Ok)).
  - apply -> in_rev. exact Hin.
Qed.

Theorem C14_not_found : forall ops tab n, table_after ops tab -> ~ In n (map fst ops) ->
  search_symbol tab n = Ret ERROR_SYMBOL_NOT_FOUND.
Proof.
  intros ops tab n H N. pose proof (table_after_ok _ _ H) as Ok.
  rewrite (search_spec _ _ n Ok).
  assert (lookup (rev ops) n = None) as -> by (apply lookup_none; rewrite nodup_rev_fst; exact N).
  reflexivity.
Qed.

(** the number of symbols reported is the number of labels inserted *)
Theorem C14_count : forall ops tab, table_after ops tab -> tab_count tab = Z.of_nat (List.length ops).
Proof.
  intros ops tab H. pose proof (table_after_ok _ _ H) as Ok. rewrite (t_count _ _ Ok), rev_length. reflexivity.
Qed.

(** C15: searching and inserting return: no endless probing, no access outside of the
    array, no overflow, up to 21474836 labels; a failed insertion is reported as such *)
Theorem C15_search_returns : forall ops tab n, table_after ops tab -> exists r, search_symbol tab n = Ret r.
Proof. intros ops tab n H. rewrite (search_spec _ _ n (table_after_ok _ _ H)). eauto. Qed.

Theorem C15_insert_returns : forall ops tab n v rs ss, table_after ops tab -> ~ In n (map fst ops) ->
  Z.of_nat (List.length ops) < 21474836 ->
  exists code tab', insert_symbol rs ss tab n v = Ret (code, tab') /\
    (rs = true -> ss = true -> code = SYMBOL_INSERTION_SUCCESS).
Proof.
  intros ops tab n v rs ss H N L. pose proof (table_after_ok _ _ H) as Ok.
  destruct (insert_spec rs ss tab (rev ops) n v Ok) as (t & E & _).
  - rewrite nodup_rev_fst. exact N.
  - rewrite (C14_count _ _ H). exact L.
  - do 2 eexists. split; [exact E|]. intros -> ->. reflexivity.
Qed.

(** the table is less than 51% full and its array has the size it claims *)
Theorem C15_load : forall ops tab, table_after ops tab ->
  100 * Z.of_nat (List.length ops) < 51 * tab_size tab /\
  Z.of_nat (List.length (tab_symbols tab)) = tab_size tab.
Proof.
  intros ops tab H. pose proof (table_after_ok _ _ H) as Ok. destruct Ok as [R C L].
  rewrite C, rev_length in L. rewrite (r_len _ _ _ R).
  pose proof (r_pos _ _ _ R). split; lia.
Qed.

(** one more label than that and the computation of the load overflows *)
Theorem C15_limit : forall ops tab n v rs ss, table_after ops tab ->
  Z.of_nat (List.length ops) >= 21474836 -> insert_symbol rs ss tab n v = Undef UbOverflow.
Proof.
  intros ops tab n v rs ss H L. apply (insert_overflow tab (rev ops)); [apply table_after_ok, H|].
  rewrite (C14_count _ _ H). unfold MAX_SYMBOLS. lia.
Qed.

(** a concrete history: three insertions, the second one fails and is repeated *)
Example table_after_example :
  exists tab, table_after [(T "ONE", 1); (T "TWO", 2)] tab /\
              search_symbol tab (T "TWO") = Ret 2 /\ search_symbol tab (T "SIX") = Ret (-2).
Proof.
  assert (exists t1, table_after [(T "ONE", 1)] t1 /\
     exists t2 t3, insert_symbol true false t1 (T "TWO") 2 = Ret (ERROR_MEMORY_ALLOCATION_FAIL, t2) /\
      insert_symbol true true t2 (T "TWO") 2 = Ret (SYMBOL_INSERTION_SUCCESS, t3))
   as (t1 & H1 & t2 & t3 & E2 & E3).
  { eexists. split.
    - apply (after_insert [] init_symbol_table true true (T "ONE") 1); [constructor|cbn; tauto|].
      vm_compute. reflexivity.
    - do 2 eexists. split; [vm_compute; reflexivity|vm_compute; reflexivity]. }
  assert (H3 : table_after [(T "ONE", 1); (T "TWO", 2)] t3).
  { apply (after_insert [(T "ONE", 1)] t2 true true (T "TWO") 2).
    - eapply after_failed; [exact H1| |exact E2]. cbn. intros [K|[]]. discriminate K.
    - cbn. intros [K|[]]. discriminate K.
    - exact E3. }
  exists t3. split; [exact H3|]. split.
  - eapply C14_found; [exact H3|]. cbn. tauto.
  - eapply C14_not_found; [exact H3|]. cbn. intros [K|[K|[]]]; discriminate K.
Qed.

(** ** C16 *)
Theorem C16_next_prime : forall x, INT_MIN <= x < INT_MAX ->
  exists p, next_prime x = Ret p /\ least_prime_above x p /\ p <= INT_MAX.
Proof.
  intros x H. destruct (next_prime_defined x H) as [p E]. exists p. split; [exact E|].
  eapply next_prime_ret; eauto. lia.
Qed.

Theorem C16_is_prime : forall x, x <= INT_MAX ->
  exists b, is_prime x = Ret b /\ (b = true <-> prime x).
Proof. exact is_prime_spec. Qed.

(** the table only ever changes size to the least prime above twice its size *)
Theorem C16_growth : forall ops tab n v rs ss code tab', table_after ops tab ->
  ~ In n (map fst ops) -> insert_symbol rs ss tab n v = Ret (code, tab') ->
  tab_size tab' = tab_size tab \/ least_prime_above (2 * tab_size tab) (tab_size tab').
Proof.
  intros ops tab n v rs ss code tab' H N E. pose proof (table_after_ok _ _ H) as Ok.
  destruct (Z_lt_le_dec (tab_count tab) MAX_SYMBOLS) as [L|L].
  - destruct (insert_spec rs ss tab (rev ops) n v Ok) as (t & Et & _ & [S|[_ S]] & _); auto.
    + rewrite nodup_rev_fst. exact N.
    + left. congruence.
    + right. congruence.
  - rewrite (insert_overflow tab (rev ops) n v rs ss Ok L) in E. discriminate.
Qed.

Example C16_example : next_prime 34 = Ret 37 /\ next_prime 2147483629 = Ret 2147483647 /\
  next_prime 2147483647 = Undef UbOverflow.
Proof. vm_compute. auto. Qed.

(** ** C21: histories of the array of pending references *)
Inductive refs_after : list ForwardRef -> Unresolved -> Prop :=
| refs_after_init : refs_after [] init_unresolved
| refs_after_add rs u ok r u' :
    refs_after rs u -> add_forward_ref ok u r = Ret (FORWARD_REFERENCE_INSERTION_SUCCESS, u') ->
    refs_after (rs ++ [r]) u'
| refs_after_failed rs u ok r u' :
    refs_after rs u -> add_forward_ref ok u r = Ret (ERROR_MEMORY_ALLOCATION_FAIL, u') ->
    refs_after rs u'.

Lemma add_overflow : forall u refs ok r, refs_ok u refs -> MAX_REFS <= un_curr u ->
  must_grow u = true -> add_forward_ref ok u r = Undef UbOverflow.
Proof.
  intros u refs ok r [C R E] L G. unfold add_forward_ref. unfold must_grow in G. rewrite G.
  unfold resize_unresolved, int_of.
  destruct (in_range INT_MIN (2 * un_size u) INT_MAX) eqn:I; [|reflexivity].
  apply in_range_spec in I. apply Z.eqb_eq in G. unfold MAX_REFS, INT_MIN, INT_MAX in *. lia.
Qed.

Lemma add_cases : forall ok u refs r code u', refs_ok u refs ->
  add_forward_ref ok u r = Ret (code, u') ->
  (code = FORWARD_REFERENCE_INSERTION_SUCCESS /\ refs_ok u' (refs ++ [r])) \/
  (code = ERROR_MEMORY_ALLOCATION_FAIL /\ refs_ok u' refs).
Proof.
  intros ok u refs r code u' H E. pose proof H as [C R Er].
  destruct (Z_lt_le_dec (un_curr u) MAX_REFS) as [L|L].
  - destruct (add_forward_ref_spec ok u refs r H L) as (v & Ev & Ok).
    rewrite Ev in E. destruct (ok || negb (must_grow u)); injection E as <- <-; auto.
  - destruct (must_grow u) eqn:G.
    + rewrite (add_overflow u refs ok r H L G) in E. discriminate.
    + unfold add_forward_ref in E. unfold must_grow in G. rewrite G in E. cbn [bind] in E.
      apply Z.eqb_neq in G. pose proof (refs_length u refs H) as Ln.
      inv_bind E. inv_bind H0. injection H1 as <- <-.
      apply put_ret in E0. destruct E0 as [_ ->]. apply int_of_ret in E. destruct E as [B ->].
      left. split; [reflexivity|]. constructor; cbn [un_curr un_size un_refs].
      * rewrite app_length. cbn. lia.
      * lia.
      * rewrite Er, C, Nat2Z.id. rewrite upd_map_some by lia. f_equal. f_equal. lia.
Qed.

Lemma refs_after_ok : forall rs u, refs_after rs u -> refs_ok u rs.
Proof.
  induction 1 as [|rs u ok r u' _ IH E|rs u ok r u' _ IH E].
  - apply refs_ok_init.
  - destruct (add_cases _ _ _ _ _ _ IH E) as [[_ Ok]|[C _]]; [exact Ok|discriminate].
  - destruct (add_cases _ _ _ _ _ _ IH E) as [[C _]|[_ Ok]]; [discriminate|exact Ok].
Qed.

(** all the references are in the array, in order, followed by NULL up to its end,
    and there is at least one NULL *)
Theorem C21_contents : forall rs u, refs_after rs u ->
  Z.of_nat (List.length (un_refs u)) = un_size u /\
  Z.of_nat (List.length rs) < un_size u /\
  un_curr u = Z.of_nat (List.length rs) /\
  forall i, (i < List.length (un_refs u))%nat ->
    nth_error (un_refs u) i = Some (nth_error rs i).
Proof.
  intros rs u H. pose proof (refs_after_ok _ _ H) as Ok. pose proof (refs_length _ _ Ok) as Ln.
  pose proof Ok as [C R E]. split; [exact Ln|]. split; [lia|]. split; [exact C|].
  intros i Li. rewrite E in *. destruct (lt_dec i (List.length rs)) as [L|L].
  - rewrite nth_error_app1 by (rewrite map_length; exact L). rewrite nth_error_map.
    destruct (nth_error rs i) eqn:N; [reflexivity|]. apply nth_error_None in N. lia.
  - rewrite nth_error_app2 by (rewrite map_length; lia). rewrite map_length.
    assert (nth_error rs i = None) as -> by (apply nth_error_None; lia).
    rewrite app_length, map_length, repeat_length in Li. apply nth_error_repeat. lia.
Qed.

(** adding one more never writes outside and is only refused for lack of memory *)
Theorem C21_add_returns : forall rs u r ok, refs_after rs u ->
  Z.of_nat (List.length rs) < 1073741823 ->
  exists code u', add_forward_ref ok u r = Ret (code, u') /\
    (ok = true -> code = FORWARD_REFERENCE_INSERTION_SUCCESS).
Proof.
  intros rs u r ok H L. pose proof (refs_after_ok _ _ H) as Ok. pose proof Ok as [C _ _].
  destruct (add_forward_ref_spec ok u rs r Ok) as (u' & E & _); [unfold MAX_REFS; lia|].
  do 2 eexists. split; [exact E|]. intros ->. reflexivity.
Qed.

(** the loop that frees them meets each of them once and stops inside the array *)
Theorem C21_freed : forall rs u, refs_after rs u -> destroy_unresolved u = Ret (List.length rs).
Proof. intros rs u H. apply destroy_spec, refs_after_ok, H. Qed.

(** nine references: the array has grown from 8 to 16 *)
Example refs_after_example : forall r, exists u, refs_after (repeat r 9) u /\ un_size u = 16.
Proof.
  intro r.
  assert (A : forall rs u v, refs_after rs u ->
              add_forward_ref true u r = Ret (FORWARD_REFERENCE_INSERTION_SUCCESS, v) ->
              refs_after (rs ++ [r]) v).
  { intros rs u v H E. eapply refs_after_add; eauto. }
  pose proof refs_after_init as H.
  do 9 (eapply A in H; [|vm_compute; reflexivity]).
  eexists. split; [exact H|reflexivity].
Qed.
