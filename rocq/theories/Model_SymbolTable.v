(** Model_SymbolTable.v -- model of src/prime.c and src/symbol_table.c. *)
From Verif Require Import Base Model_Opcode.

(** src/prime.c:24-27: the trial-division loop from [i]; [n] is [x].  The bound
    floor(sqrt((double)x)) is the integer square root for every int (proved in
    Proof_Sqrt.v against IEEE-754 binary64).  The state is [i]; [inr true] is the
    [return 0] inside the loop, [inr false] the end of the loop. *)
Definition prime_step (x : Z) (i : Z) : Z + bool :=
  if i <=? Z.sqrt x then
    if x mod i =? 0 then inr true else inl (i + 2)
  else inr false.

(** src/prime.c:16-29 is_prime.  [i] goes from 3 to at most sqrt(2^31) in steps of
    2, so 2^16 turns are enough for an int (proved); exhausting them is [Diverge]. *)
Definition is_prime (x : Z) : M bool :=
  if x <? 2 then Ret false
  else if x <? 4 then Ret true
  else if Z.rem x 2 =? 0 then Ret false
  else match loop 65536 (prime_step x) 3 with
       | inr found => Ret (negb found)
       | inl _ => Diverge
       end.

(** src/prime.c:38-46 next_prime: one turn of the do-while loop; incrementing
    INT_MAX is undefined *)
Definition next_prime_step (x : Z) : Z + M Z :=
  match int_of (x + 1) with
  | Ret x1 =>
    match is_prime x1 with
    | Ret true => inr (Ret x1)
    | Ret false => inl x1
    | Undef u => inr (Undef u)
    | Diverge => inr Diverge
    end
  | Undef u => inr (Undef u)
  | Diverge => inr Diverge
  end.

(** src/prime.c:38-46 next_prime: at most [turns] turns of the do-while loop *)
Definition next_prime_within (turns : positive) (x : Z) : M Z :=
  match loop turns next_prime_step x with
  | inr r => r
  | inl _ => Diverge
  end.

(** src/prime.c:38-46 next_prime.  [x] grows by one at each turn and is an int, so
    INT_MAX - x + 1 turns are enough (proved); exhausting them is [Diverge]. *)
Definition next_prime (x : Z) : M Z := next_prime_within (Z.to_pos (INT_MAX - x + 1)) x.

Definition SYMTAB_BASE_SIZE : Z := 17.           (* src/symbol_table.c:23 *)
Definition SYMBOL_INSERTION_SUCCESS : Z := 1.    (* src/symbol_table.h:11 *)

(** src/symbol_table.h:13-17 struct Symbol *)
Record Symbol := mkSym { sym_label : text; sym_value : Z }.

(** src/symbol_table.h:19-23 struct SymbolTable; a NULL pointer is [None] *)
Record SymbolTable := mkTab {
  tab_symbols : list (option Symbol);
  tab_size : Z;
  tab_count : Z }.

(** src/symbol_table.c:31-44 init_symbol_table (allocation succeeded) *)
Definition init_symbol_table : SymbolTable :=
  mkTab (repeat None 17) SYMTAB_BASE_SIZE 0.

(** src/symbol_table.c:78-84 djb2_hash (unsigned long, 64 bit; the char is
    sign-extended) *)
Definition djb2_step (hash : Z) (c : ascii) : Z :=
  u64 (u64 (u64 (hash * 32) + hash) + schar c).
(** src/symbol_table.c:78-84 djb2_hash: the loop *)
Definition djb2_hash (label : text) : Z := fold_left djb2_step label 5381.

(** the loops "while (curr) { hash = (hash + 1) % size; curr = symbols[hash]; }" of
    src/symbol_table.c:114-118 and 182-186: find a free slot from [hash] on.
    [fuel] turns; exhausting them is [Diverge]. *)
Fixpoint probe_free (fuel : nat) (symbols : list (option Symbol)) (size : Z) (hash : Z) : M Z :=
  curr <- get symbols hash ;;
  match curr with
  | None => Ret hash
  | Some _ =>
    match fuel with
    | O => Diverge
    | S fuel' => probe_free fuel' symbols size (Z.rem (hash + 1) size)
    end
  end.

(** src/symbol_table.c:109-121: one turn of the rehash loop *)
Definition rehash_one (new_size : Z) (new_symbols : list (option Symbol))
    (old_sym : option Symbol) : M (list (option Symbol)) :=
  match old_sym with
  | None => Ret new_symbols
  | Some sym =>
    h <- probe_free (Z.to_nat new_size) new_symbols new_size
                    (djb2_hash (sym_label sym) mod new_size) ;;
    put new_symbols h old_sym
  end.

(** src/symbol_table.c:109-122: "for (i = 0; i < symtab->size; i++)" *)
Fixpoint rehash_all (new_size : Z) (old : list (option Symbol))
    (new_symbols : list (option Symbol)) : M (list (option Symbol)) :=
  match old with
  | [] => Ret new_symbols
  | s :: old' =>
    n <- rehash_one new_size new_symbols s ;;
    rehash_all new_size old' n
  end.

(** src/symbol_table.c:96-127 resize_symbols.  [alloc_ok] is the outcome of
    calloc; [None] is the NULL result. *)
Definition resize_symbols (alloc_ok : bool) (symtab : SymbolTable) : M (option SymbolTable) :=
  twice <- int_of (tab_size symtab * 2) ;;
  new_size <- next_prime twice ;;
  if negb alloc_ok then Ret None
  else if Z.of_nat (List.length (tab_symbols symtab)) <? tab_size symtab then Undef UbIndex
  else
    new_symbols <- rehash_all new_size
                     (firstn (Z.to_nat (tab_size symtab)) (tab_symbols symtab))
                     (repeat None (Z.to_nat new_size)) ;;
    Ret (Some (mkTab new_symbols new_size (tab_count symtab))).

(** src/symbol_table.c:165-191 insert_symbol.  [resize_ok] and [sym_ok] are the
    outcomes of the allocations in resize_symbols and init_symbol (139-152). *)
Definition insert_symbol (resize_ok sym_ok : bool) (symtab : SymbolTable) (label : text)
    (value : Z) : M (Z * SymbolTable) :=
  count1 <- int_of (tab_count symtab + 1) ;;
  scaled <- int_of (count1 * 100) ;;
  let load := Z.quot scaled (tab_size symtab) in
  resized <- (if 50 <? load then resize_symbols resize_ok symtab else Ret (Some symtab)) ;;
  match resized with
  | None => Ret (ERROR_MEMORY_ALLOCATION_FAIL, symtab)
  | Some tab =>
    if negb sym_ok then Ret (ERROR_MEMORY_ALLOCATION_FAIL, tab)
    else
      hash <- probe_free (Z.to_nat (tab_size tab)) (tab_symbols tab) (tab_size tab)
                         (djb2_hash label mod tab_size tab) ;;
      symbols <- put (tab_symbols tab) hash (Some (mkSym label value)) ;;
      count <- int_of (tab_count tab + 1) ;;
      Ret (SYMBOL_INSERTION_SUCCESS, mkTab symbols (tab_size tab) count)
  end.

(** src/symbol_table.c:203-211: the probe loop of search_symbol *)
Fixpoint search_loop (fuel : nat) (symbols : list (option Symbol)) (size : Z) (label : text)
    (hash : Z) : M Z :=
  curr <- get symbols hash ;;
  match curr with
  | None => Ret ERROR_SYMBOL_NOT_FOUND
  | Some sym =>
    if text_eqb label (sym_label sym) then Ret (sym_value sym)
    else
      match fuel with
      | O => Diverge
      | S fuel' => search_loop fuel' symbols size label (Z.rem (hash + 1) size)
      end
  end.

(** src/symbol_table.c:201-213 search_symbol *)
Definition search_symbol (symtab : SymbolTable) (label : text) : M Z :=
  search_loop (Z.to_nat (tab_size symtab)) (tab_symbols symtab) (tab_size symtab) label
              (djb2_hash label mod tab_size symtab).
