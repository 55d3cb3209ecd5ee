(** Prop_Cost.v -- C67: the memory of the symbol table and of the array of pending references is
    linear in what they hold, and a search looks at no more slots than there are labels, plus one. *)
From Coq Require Import Permutation Znumtheory.
From Verif Require Import Base Proof_Base Model_Opcode Model_Lexer Model_SymbolTable Model_ForwardRef
  Spec_Table Spec_Isa Spec_Text Spec_Asm Proof_Prime Proof_Table Proof_Refs Prop_Table.

(** ** the sizes the symbol table can have *)
Lemma least_unique : forall x p q, least_prime_above x p -> least_prime_above x q -> p = q.
Proof.
  intros x p q (Lp & Pp & Mp) (Lq & Pq & Mq).
  destruct (Z.lt_trichotomy p q) as [L|[E|L]]; [|exact E|].
  - exfalso. apply (Mq p); [lia|exact Pp].
  - exfalso. apply (Mp q); [lia|exact Pq].
Qed.

(** the chain of sizes, each the least prime above twice the one before *)
Fixpoint sizes (n : nat) (s : Z) : list Z :=
  match n with
  | O => [s]
  | S n' => s :: match next_prime_within 1000 (s * 2) with Ret p => sizes n' p | _ => [] end
  end.
Definition table_sizes : list Z := sizes 23 17.
Lemma table_sizes_are : table_sizes =
  [17; 37; 79; 163; 331; 673; 1361; 2729; 5471; 10949; 21911; 43853; 87719; 175447; 350899;
   701819; 1403641; 2807303; 5614657; 11229331; 22458671; 44917381; 89834777; 179669557].
Proof. vm_compute. reflexivity. Qed.

Lemma next_size : forall s p, 0 <= s -> next_prime_within 1000 (s * 2) = Ret p -> least_prime_above (2 * s) p.
Proof.
  intros s p H E. replace (2 * s) with (s * 2) by lia.
  eapply next_prime_within_ret; [|exact E]. unfold INT_MIN. lia.
Qed.

(** one step of the chain; the bound is 4 slots for each label and 17 *)
Lemma grown : forall s p c, In s (firstn 21 table_sizes) -> least_prime_above (2 * s) p ->
  51 * s <= (c + 1) * 100 -> In p (firstn 22 table_sizes) /\ p <= 4 * c + 17.
Proof.
  intros s p c I L B. rewrite table_sizes_are in *. cbn [firstn] in *.
  assert (K : forall q, least_prime_above (2 * s) q -> p = q) by (intros q; apply least_unique; exact L).
  cbn [In] in I.
  repeat (destruct I as [<-|I];
    [match goal with |- context [In p _] => idtac end;
     match type of L with least_prime_above (2 * ?n) _ =>
       let r := eval vm_compute in (next_prime_within 1000 (n * 2)) in
       match r with Ret ?q =>
         assert (p = q) as -> by (apply K, next_size; [lia|vm_compute; reflexivity]) end end;
     split; [cbn [In]; tauto|lia]|]).
  contradiction.
Qed.
Definition SIZES : list Z :=
  [17; 37; 79; 163; 331; 673; 1361; 2729; 5471; 10949; 21911; 43853; 87719; 175447; 350899;
   701819; 1403641; 2807303; 5614657; 11229331; 22458671; 44917381].

Lemma sizes_small : forall s, In s (firstn 22 table_sizes) -> s <= 42107522 -> In s (firstn 21 table_sizes).
Proof.
  intros s I B. rewrite table_sizes_are in *. cbn [firstn In] in *.
  repeat (destruct I as [I|I]; [tauto || (exfalso; lia)|]). contradiction.
Qed.

(** the table has one of 22 sizes, and at most 4 slots for each label in it and 17 *)
Theorem C67_table : forall ops tab, table_after ops tab ->
  List.length (tab_symbols tab) = Z.to_nat (tab_size tab) /\ In (tab_size tab) SIZES /\
  tab_size tab <= 4 * Z.of_nat (List.length ops) + 17.
Proof.
  intros ops tab H. pose proof (table_after_ok _ _ H) as Ok0.
  split; [apply (r_len _ _ _ (t_repr _ _ Ok0))|].
  rewrite <- (C14_count _ _ H). change SIZES with (firstn 22 [17; 37; 79; 163; 331; 673; 1361; 2729; 5471; 10949; 21911; 43853; 87719; 175447; 350899;
   701819; 1403641; 2807303; 5614657; 11229331; 22458671; 44917381; 89834777; 179669557]). rewrite <- table_sizes_are. clear Ok0.
  assert (Step : forall ops tab rs ss n v code tab', table_after ops tab -> ~ In n (map fst ops) ->
    insert_symbol rs ss tab n v = Ret (code, tab') -> In (tab_size tab) (firstn 22 table_sizes) ->
    tab_size tab <= 4 * tab_count tab + 17 -> tab_count tab <= tab_count tab' ->
    In (tab_size tab') (firstn 22 table_sizes) /\ tab_size tab' <= 4 * tab_count tab' + 17).
  { clear. intros ops tab rs ss n v code tab' H N E I B C. pose proof (table_after_ok _ _ H) as Ok.
    destruct (Z_lt_le_dec (tab_count tab) MAX_SYMBOLS) as [L|L].
    2:{ rewrite (insert_overflow tab (rev ops) n v rs ss Ok L) in E. discriminate. }
    destruct (insert_spec rs ss tab (rev ops) n v Ok) as (t & Et & _ & [S|[G S]] & _); auto.
    { rewrite nodup_rev_fst. exact N. }
    { assert (t = tab') as -> by congruence. rewrite S. split; [exact I|lia]. }
    assert (t = tab') as -> by congruence.
    pose proof (r_pos _ _ _ (t_repr _ _ Ok)) as P. pose proof (t_count _ _ Ok) as Ct.
    assert (51 * tab_size tab <= (tab_count tab + 1) * 100) as Hg.
    { unfold grows in G. apply Z.ltb_lt in G. rewrite Z.quot_div_nonneg in G by lia.
      assert (51 <= (tab_count tab + 1) * 100 / tab_size tab) as G1 by lia.
      apply (Z.mul_le_mono_nonneg_r _ _ (tab_size tab)) in G1; [|lia].
      pose proof (Z.mul_div_le ((tab_count tab + 1) * 100) (tab_size tab) P). lia. }
    unfold MAX_SYMBOLS in L.
    destruct (grown (tab_size tab) (tab_size tab') (tab_count tab)) as [G1 G2]; auto.
    - apply sizes_small; [exact I|lia].
    - split; [exact G1|lia]. }
  induction H as [|ops tab rs ss n v tab' H IH N E|ops tab rs ss n v tab' H IH N E].
  - split; [left; reflexivity|]. vm_compute. discriminate.
  - destruct IH as [I B]. eapply Step; [exact H|exact N|exact E|exact I|exact B|].
    assert (H' := after_insert _ _ _ _ _ _ _ H N E).
    rewrite (C14_count _ _ H), (C14_count _ _ H'), app_length. lia.
  - destruct IH as [I B]. eapply Step; [exact H|exact N|exact E|exact I|exact B|].
    assert (H' := after_failed _ _ _ _ _ _ _ H N E).
    rewrite (C14_count _ _ H), (C14_count _ _ H'). lia.
Qed.

(** ** the array of pending references *)
Lemma add_size : forall ok u r code u', add_forward_ref ok u r = Ret (code, u') ->
  un_size u' = un_size u \/
  (un_curr u = un_size u - 1 /\ un_size u' = 2 * un_size u /\ code = FORWARD_REFERENCE_INSERTION_SUCCESS).
Proof.
  intros ok u r code u' E. unfold add_forward_ref in E.
  destruct (Z.eqb_spec (un_curr u) (un_size u - 1)) as [G|G].
  - unfold resize_unresolved in E. destruct (int_of (2 * un_size u)) as [n| |] eqn:N; try discriminate E.
    apply int_of_ret in N. destruct N as [_ ->]. cbn [bind] in E.
    destruct ok; cbn [negb bind] in E.
    + cbn [un_refs un_curr un_size] in E. inv_bind E. inv_bind H. injection H0 as <- <-.
      right. cbn [un_size]. auto.
    + injection E as <- <-. auto.
  - cbn [bind] in E. inv_bind E. inv_bind H. injection H0 as <- <-. auto.
Qed.

(** at most 2 entries for each pending reference, and 8 *)
Theorem C67_refs : forall rs u, refs_after rs u ->
  Z.of_nat (List.length (un_refs u)) <= 2 * Z.of_nat (List.length rs) + 8.
Proof.
  intros rs u H. destruct (C21_contents _ _ H) as (-> & _).
  induction H as [|rs u ok r u' H IH E|rs u ok r u' H IH E].
  - vm_compute. discriminate.
  - destruct (C21_contents _ _ H) as (_ & _ & C & _). rewrite app_length. cbn [List.length].
    destruct (add_size _ _ _ _ _ E) as [->|(G & -> & _)]; lia.
  - destruct (add_size _ _ _ _ _ E) as [->|(G & _ & D)]; [exact IH|discriminate D].
Qed.

(** ** the number of slots looked at *)
Definition occ (l : list (option Symbol)) (i : nat) : bool :=
  match nth_error l i with Some (Some _) => true | _ => false end.
Lemma filter_map_S : forall (f : nat -> bool) l,
  List.length (filter f (map S l)) = List.length (filter (fun i => f (S i)) l).
Proof. intros f l. induction l as [|x l IH]; [reflexivity|]. cbn [map filter]. destruct (f (S x)); cbn [List.length]; lia. Qed.
Lemma occ_count : forall l, List.length (filter (occ l) (seq 0 (List.length l))) = List.length (pairs l).
Proof.
  induction l as [|o l IH]; [reflexivity|]. cbn [List.length seq filter].
  rewrite <- seq_shift.
  assert (E : List.length (filter (occ (o :: l)) (map S (seq 0 (List.length l)))) = List.length (pairs l)).
  { rewrite filter_map_S. rewrite <- IH. f_equal. }
  replace (occ (o :: l) 0) with (match o with Some _ => true | None => false end) by reflexivity.
  destruct o as [s|]; cbn [pairs List.length]; rewrite E; reflexivity.
Qed.

Lemma nodup_map_in : forall (f : nat -> nat) l, (forall i j, In i l -> In j l -> f i = f j -> i = j) ->
  NoDup l -> NoDup (map f l).
Proof.
  intros f l I N. induction N as [|x l X N IH]; cbn [map]; constructor.
  - intros A. apply in_map_iff in A. destruct A as (y & E & Y). apply X.
    rewrite <- (I y x); [exact Y|right; exact Y|left; reflexivity|exact E].
  - apply IH. intros i j Hi Hj. apply I; right; assumption.
Qed.
Lemma run_length : forall l size e h k, repr l size e -> 0 <= h < size -> Z.of_nat k <= size ->
  (forall j, 0 <= j < Z.of_nat k -> slot l size h j <> None) -> (k <= List.length e)%nat.
Proof.
  intros l size e h k R Hh Hk Ho. pose proof (r_pos _ _ _ R) as P. pose proof (r_len _ _ _ R) as Ln.
  rewrite <- (Permutation_length (r_perm _ _ _ R)), <- occ_count.
  rewrite <- (seq_length k 0) at 1.
  rewrite <- (map_length (fun j => Z.to_nat ((h + Z.of_nat j) mod size)) (seq 0 k)).
  apply NoDup_incl_length.
  - apply nodup_map_in; [|apply seq_NoDup].
    intros i j Hi Hj E. apply in_seq in Hi, Hj.
    apply Z2Nat.inj in E; [|apply Z.mod_pos_bound; lia|apply Z.mod_pos_bound; lia].
    assert (D : (Z.of_nat i - Z.of_nat j) mod size = 0).
    { replace (Z.of_nat i - Z.of_nat j) with ((h + Z.of_nat i) - (h + Z.of_nat j)) by lia.
      rewrite Zminus_mod, E, Z.sub_diag. reflexivity. }
    apply Z.mod_divide in D; [|lia]. destruct D as [q D]. 
    assert (q = 0) by nia. nia.
  - intros x Hx. apply in_map_iff in Hx. destruct Hx as (j & <- & Hj). apply in_seq in Hj.
    assert (A : slot l size h (Z.of_nat j) <> None) by (apply Ho; lia).
    apply filter_In. unfold slot in A. unfold occ.
    destruct (nth_error l (Z.to_nat ((h + Z.of_nat j) mod size))) as [[s|]|] eqn:N; try contradiction.
    split; [|reflexivity]. apply in_seq. split; [lia|]. cbn [Nat.add]. apply nth_error_Some. congruence.
Qed.

Lemma repr_search_cost : forall l size e n fuel, repr l size e -> Z.of_nat (List.length e) < size ->
  (List.length e <= fuel)%nat ->
  search_loop fuel l size n (djb2_hash n mod size) =
  Ret (match lookup e n with Some v => v | None => ERROR_SYMBOL_NOT_FOUND end).
Proof.
  intros l size e n fuel R L F. pose proof (repr_room _ _ _ R L) as Room.
  pose proof R as [H1 H2 H3 H4 H5]. pose proof (hash_range n size H1) as Hr.
  destruct (lookup e n) as [v|] eqn:E.
  - apply lookup_in in E. destruct (H5 n v E) as (k & Lk & Ek & Ok).
    assert (Kb : (Z.to_nat k <= List.length e)%nat).
    { eapply run_length; [exact R|exact Hr|lia|]. intros j Hj. apply Ok. lia. }
    destruct (scan_labels l size (djb2_hash n mod size) n (Z.to_nat k)) as [(k' & s & Lk' & Es & En & On)|N].
    { intros j Hj. apply Ok. lia. }
    + rewrite (search_hit l size H1 H2 k' _ _ n s); auto; [|lia].
      f_equal. pose proof (repr_slot_in _ _ _ _ _ _ R Es) as Hin. rewrite En in Hin.
      eapply nodup_fst; eauto.
    + rewrite (search_hit l size H1 H2 (Z.to_nat k) _ _ n (mkSym n v)); auto; [lia|].
      rewrite Z2Nat.id by lia. exact Ek.
  - destruct (first_free l size H1 H2 (djb2_hash n mod size) Hr Room) as (k & Lk & Ek & Ok).
    assert (Kb : (k <= List.length e)%nat) by (eapply run_length; [exact R|exact Hr|lia|exact Ok]).
    destruct (scan_labels l size (djb2_hash n mod size) n k Ok) as [(k' & s & Lk' & Es & En & On)|N].
    + exfalso. apply lookup_none in E. apply E. rewrite <- En.
      pose proof (repr_slot_in _ _ _ _ _ _ R Es) as Hin. apply (in_map fst) in Hin. exact Hin.
    + apply (search_miss l size H1 H2 k); auto. lia.
Qed.

(** a search for any label ends after at most as many further slots as there are labels:
    [search_loop n] looks at one slot and then at up to [n] more *)
Theorem C67_search : forall ops tab label, table_after ops tab ->
  search_loop (List.length ops) (tab_symbols tab) (tab_size tab) label (djb2_hash label mod tab_size tab) =
  search_symbol tab label.
Proof.
  intros ops tab label H. pose proof (table_after_ok _ _ H) as Ok.
  unfold search_symbol. pose proof (tab_ok_room _ _ Ok) as Rm. pose proof (t_repr _ _ Ok) as R.
  rewrite (repr_search _ _ _ label R Rm).
  apply repr_search_cost; [exact R|exact Rm|]. rewrite rev_length. lia.
Qed.

(** so does the search for a free slot of an insertion *)
Theorem C67_probe : forall ops tab label, table_after ops tab ->
  exists h, probe_free (List.length ops) (tab_symbols tab) (tab_size tab) (djb2_hash label mod tab_size tab) = Ret h /\
    probe_free (Z.to_nat (tab_size tab)) (tab_symbols tab) (tab_size tab) (djb2_hash label mod tab_size tab) = Ret h /\
    0 <= h < tab_size tab /\ nth_error (tab_symbols tab) (Z.to_nat h) = Some None.
Proof.
  intros ops tab label H. pose proof (table_after_ok _ _ H) as Ok.
  pose proof (tab_ok_room _ _ Ok) as Rm. pose proof (t_repr _ _ Ok) as R.
  pose proof (r_pos _ _ _ R) as P. pose proof (r_len _ _ _ R) as Ln.
  pose proof (hash_range label _ P) as Hr.
  destruct (first_free _ _ P Ln _ Hr (repr_room _ _ _ R Rm)) as (k & Lk & Ek & Ok').
  assert (Kb : (k <= List.length ops)%nat).
  { rewrite <- rev_length. eapply run_length; [exact R|exact Hr|lia|exact Ok']. }
  eexists. split; [apply (probe_free_spec _ _ P Ln k); auto|].
  split; [apply (probe_free_spec _ _ P Ln k); auto; lia|].
  pose proof (Z.mod_pos_bound (djb2_hash label mod tab_size tab + Z.of_nat k) _ P) as B.
  split; [exact B|]. unfold slot in Ek.
  destruct (nth_error (tab_symbols tab) (Z.to_nat ((djb2_hash label mod tab_size tab + Z.of_nat k) mod tab_size tab))) as [o|] eqn:N.
  - congruence.
  - apply nth_error_None in N. lia.
Qed.

(** nine labels: the table has grown from 17 to 37 slots; the bound is 53 *)
Definition nine : list (text * Z) :=
  [(T "A", 1); (T "B", 2); (T "C", 3); (T "D", 4); (T "E", 5); (T "F", 6); (T "G", 7); (T "H", 8); (T "I", 9)].
Example C67_case : exists tab, table_after nine tab /\ tab_size tab = 37 /\
  search_loop 9 (tab_symbols tab) (tab_size tab) (T "G") (djb2_hash (T "G") mod tab_size tab) = Ret 7.
Proof.
  assert (A : forall ops n v tab tab', table_after ops tab -> existsb (text_eqb n) (map fst ops) = false ->
              insert_symbol true true tab n v = Ret (SYMBOL_INSERTION_SUCCESS, tab') ->
              table_after (ops ++ [(n, v)]) tab').
  { intros ops n v tab tab' H N E. eapply after_insert; [exact H| |exact E].
    intros I. assert (existsb (text_eqb n) (map fst ops) = true); [|congruence].
    apply existsb_exists. exists n. split; [exact I|apply text_eqb_refl]. }
  pose proof after_init as H.
  eapply (A _ (T "A") 1) in H; [|vm_compute; reflexivity|vm_compute; reflexivity].
  eapply (A _ (T "B") 2) in H; [|vm_compute; reflexivity|vm_compute; reflexivity].
  eapply (A _ (T "C") 3) in H; [|vm_compute; reflexivity|vm_compute; reflexivity].
  eapply (A _ (T "D") 4) in H; [|vm_compute; reflexivity|vm_compute; reflexivity].
  eapply (A _ (T "E") 5) in H; [|vm_compute; reflexivity|vm_compute; reflexivity].
  eapply (A _ (T "F") 6) in H; [|vm_compute; reflexivity|vm_compute; reflexivity].
  eapply (A _ (T "G") 7) in H; [|vm_compute; reflexivity|vm_compute; reflexivity].
  eapply (A _ (T "H") 8) in H; [|vm_compute; reflexivity|vm_compute; reflexivity].
  eapply (A _ (T "I") 9) in H; [|vm_compute; reflexivity|vm_compute; reflexivity].
  eexists. split; [exact H|]. split; reflexivity.
Qed.
