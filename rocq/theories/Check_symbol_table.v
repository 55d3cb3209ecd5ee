(** Check_symbol_table.v -- generated by tools/tests.py: the unit tests of /repo/tests/symbol_table/test_symbol_table.c run on the model.
    These are tests of the model against the expectations of the authors of the program, not
    proofs of properties: 82 assertions in 4 test functions; 21 assertions and statements without
    counterpart in the model are left out (pointers that are not NULL, the int returned by
    token_strcpy, enum values out of range).  Each computation returns the lines of the test file
    whose assertions fail. *)
From Verif Require Import Base Model_Opcode Model_Error Model_Lexer Model_SymbolTable Model_Parser
  Model_ForwardRef Model_Generator Check_Base.

(** test_init_destroy_symtab: 20 assertions *)
Definition test_init_destroy_symtab : M (list Z) :=
  let bad := @nil Z in
  let symtab := init_symbol_table in
  let bad := chk 15 ((tab_size symtab) =? (17)) bad in
  let bad := chk 16 ((tab_count symtab) =? (0)) bad in
  let bad := chk 17 (tab_size symtab =? 17) bad in
  o <- get (tab_symbols symtab) 0 ;;
  let bad := chk 18 (negb (is_some o)) bad in
  o <- get (tab_symbols symtab) 1 ;;
  let bad := chk 18 (negb (is_some o)) bad in
  o <- get (tab_symbols symtab) 2 ;;
  let bad := chk 18 (negb (is_some o)) bad in
  o <- get (tab_symbols symtab) 3 ;;
  let bad := chk 18 (negb (is_some o)) bad in
  o <- get (tab_symbols symtab) 4 ;;
  let bad := chk 18 (negb (is_some o)) bad in
  o <- get (tab_symbols symtab) 5 ;;
  let bad := chk 18 (negb (is_some o)) bad in
  o <- get (tab_symbols symtab) 6 ;;
  let bad := chk 18 (negb (is_some o)) bad in
  o <- get (tab_symbols symtab) 7 ;;
  let bad := chk 18 (negb (is_some o)) bad in
  o <- get (tab_symbols symtab) 8 ;;
  let bad := chk 18 (negb (is_some o)) bad in
  o <- get (tab_symbols symtab) 9 ;;
  let bad := chk 18 (negb (is_some o)) bad in
  o <- get (tab_symbols symtab) 10 ;;
  let bad := chk 18 (negb (is_some o)) bad in
  o <- get (tab_symbols symtab) 11 ;;
  let bad := chk 18 (negb (is_some o)) bad in
  o <- get (tab_symbols symtab) 12 ;;
  let bad := chk 18 (negb (is_some o)) bad in
  o <- get (tab_symbols symtab) 13 ;;
  let bad := chk 18 (negb (is_some o)) bad in
  o <- get (tab_symbols symtab) 14 ;;
  let bad := chk 18 (negb (is_some o)) bad in
  o <- get (tab_symbols symtab) 15 ;;
  let bad := chk 18 (negb (is_some o)) bad in
  o <- get (tab_symbols symtab) 16 ;;
  let bad := chk 18 (negb (is_some o)) bad in
  Ret (rev bad).
Example test_init_destroy_symtab_passes : test_init_destroy_symtab = Ret [].
Proof. vm_compute. reflexivity. Qed.

(** test_insert_symbol: 26 assertions *)
Definition test_insert_symbol : M (list Z) :=
  let bad := @nil Z in
  let symtab := init_symbol_table in
  let bad := chk 28 ((tab_size symtab) =? (17)) bad in
  let bad := chk 29 ((tab_count symtab) =? (0)) bad in
  '(res, symtab) <- insert_symbol true true symtab (C "JANUS") (1) ;;
  let bad := chk 31 (res =? SYMBOL_INSERTION_SUCCESS) bad in
  let bad := chk 32 ((tab_count symtab) =? (1)) bad in
  o <- get (tab_symbols symtab) 8 ;;
  let bad := chk 33 (is_some o) bad in
  o <- get (tab_symbols symtab) 8 ;;
  y <- some o ;;
  let bad := chk 35 (text_eqb (sym_label y) (C "JANUS")) bad in
  '(res, symtab) <- insert_symbol true true symtab (C "CHKEND") (2) ;;
  let bad := chk 37 (res =? SYMBOL_INSERTION_SUCCESS) bad in
  let bad := chk 38 ((tab_count symtab) =? (2)) bad in
  o <- get (tab_symbols symtab) 15 ;;
  let bad := chk 39 (is_some o) bad in
  o <- get (tab_symbols symtab) 15 ;;
  y <- some o ;;
  let bad := chk 41 (text_eqb (sym_label y) (C "CHKEND")) bad in
  '(res, symtab) <- insert_symbol true true symtab (C "SORT8") (3) ;;
  let bad := chk 43 (res =? SYMBOL_INSERTION_SUCCESS) bad in
  let bad := chk 44 ((tab_count symtab) =? (3)) bad in
  o <- get (tab_symbols symtab) 16 ;;
  let bad := chk 45 (is_some o) bad in
  o <- get (tab_symbols symtab) 16 ;;
  y <- some o ;;
  let bad := chk 47 (text_eqb (sym_label y) (C "SORT8")) bad in
  '(res, symtab) <- insert_symbol true true symtab (C "NXTEL") (4) ;;
  let bad := chk 49 (res =? SYMBOL_INSERTION_SUCCESS) bad in
  let bad := chk 50 ((tab_count symtab) =? (4)) bad in
  o <- get (tab_symbols symtab) 4 ;;
  let bad := chk 51 (is_some o) bad in
  o <- get (tab_symbols symtab) 4 ;;
  y <- some o ;;
  let bad := chk 53 (text_eqb (sym_label y) (C "NXTEL")) bad in
  '(res, symtab) <- insert_symbol true true symtab (C "OPNING") (5) ;;
  let bad := chk 55 (res =? SYMBOL_INSERTION_SUCCESS) bad in
  let bad := chk 56 ((tab_count symtab) =? (5)) bad in
  o <- get (tab_symbols symtab) 0 ;;
  let bad := chk 57 (is_some o) bad in
  o <- get (tab_symbols symtab) 0 ;;
  y <- some o ;;
  let bad := chk 59 (text_eqb (sym_label y) (C "OPNING")) bad in
  '(res, symtab) <- insert_symbol true true symtab (C "SWAP") (6) ;;
  let bad := chk 61 (res =? SYMBOL_INSERTION_SUCCESS) bad in
  let bad := chk 62 ((tab_count symtab) =? (6)) bad in
  o <- get (tab_symbols symtab) 11 ;;
  let bad := chk 63 (is_some o) bad in
  o <- get (tab_symbols symtab) 11 ;;
  y <- some o ;;
  let bad := chk 65 (text_eqb (sym_label y) (C "SWAP")) bad in
  Ret (rev bad).
Example test_insert_symbol_passes : test_insert_symbol = Ret [].
Proof. vm_compute. reflexivity. Qed.

(** test_search_symbol: 15 assertions *)
Definition test_search_symbol : M (list Z) :=
  let bad := @nil Z in
  let symtab := init_symbol_table in
  '(res, symtab) <- insert_symbol true true symtab (C "JANUS") (1) ;;
  '(res, symtab) <- insert_symbol true true symtab (C "CHKEND") (2) ;;
  '(res, symtab) <- insert_symbol true true symtab (C "SORT8") (3) ;;
  '(res, symtab) <- insert_symbol true true symtab (C "NXTEL") (4) ;;
  '(res, symtab) <- insert_symbol true true symtab (C "OPNING") (5) ;;
  '(res, symtab) <- insert_symbol true true symtab (C "SWAP") (6) ;;
  res <- search_symbol symtab (C "JANUS") ;;
  let bad := chk 82 (res =? (1)) bad in
  res <- search_symbol symtab (C "CHKEND") ;;
  let bad := chk 83 (res =? (2)) bad in
  res <- search_symbol symtab (C "SORT8") ;;
  let bad := chk 84 (res =? (3)) bad in
  res <- search_symbol symtab (C "NXTEL") ;;
  let bad := chk 85 (res =? (4)) bad in
  res <- search_symbol symtab (C "OPNING") ;;
  let bad := chk 86 (res =? (5)) bad in
  res <- search_symbol symtab (C "SWAP") ;;
  let bad := chk 87 (res =? (6)) bad in
  res <- search_symbol symtab (C "lol") ;;
  let bad := chk 89 (res =? ERROR_SYMBOL_NOT_FOUND) bad in
  res <- search_symbol symtab (C "main") ;;
  let bad := chk 90 (res =? ERROR_SYMBOL_NOT_FOUND) bad in
  res <- search_symbol symtab (C "SORT16") ;;
  let bad := chk 91 (res =? ERROR_SYMBOL_NOT_FOUND) bad in
  res <- search_symbol symtab (C "!@#$%^&*()") ;;
  let bad := chk 92 (res =? ERROR_SYMBOL_NOT_FOUND) bad in
  res <- search_symbol symtab (C "SETW") ;;
  let bad := chk 93 (res =? ERROR_SYMBOL_NOT_FOUND) bad in
  '(res, symtab) <- insert_symbol true true symtab (C "SORT16") (7) ;;
  o <- get (tab_symbols symtab) 12 ;;
  let bad := chk 97 (is_some o) bad in
  res <- search_symbol symtab (C "SORT16") ;;
  let bad := chk 99 (res =? (7)) bad in
  '(res, symtab) <- insert_symbol true true symtab (C "SETW") (8) ;;
  o <- get (tab_symbols symtab) 1 ;;
  let bad := chk 103 (is_some o) bad in
  res <- search_symbol symtab (C "SETW") ;;
  let bad := chk 105 (res =? (8)) bad in
  Ret (rev bad).
Example test_search_symbol_passes : test_search_symbol = Ret [].
Proof. vm_compute. reflexivity. Qed.

(** test_resize_automatic: 21 assertions *)
Definition test_resize_automatic : M (list Z) :=
  let bad := @nil Z in
  let symtab := init_symbol_table in
  let bad := chk 133 ((tab_size symtab) =? (17)) bad in
  '(res, symtab) <- insert_symbol true true symtab (C "JANUS") (1) ;;
  '(res, symtab) <- insert_symbol true true symtab (C "CHKEND") (2) ;;
  '(res, symtab) <- insert_symbol true true symtab (C "SORT8") (3) ;;
  '(res, symtab) <- insert_symbol true true symtab (C "NXTEL") (4) ;;
  '(res, symtab) <- insert_symbol true true symtab (C "OPNING") (5) ;;
  '(res, symtab) <- insert_symbol true true symtab (C "SWAP") (6) ;;
  '(res, symtab) <- insert_symbol true true symtab (C "SORT16") (7) ;;
  '(res, symtab) <- insert_symbol true true symtab (C "SETW") (8) ;;
  let bad := chk 154 ((tab_size symtab) =? (17)) bad in
  '(res, symtab) <- insert_symbol true true symtab (C "REVERSE") (9) ;;
  let bad := chk 156 ((tab_size symtab) =? (37)) bad in
  o <- get (tab_symbols symtab) 20 ;;
  let bad := chk 160 (is_some o) bad in
  o <- get (tab_symbols symtab) 20 ;;
  y <- some o ;;
  let bad := chk 162 (text_eqb (sym_label y) (C "JANUS")) bad in
  o <- get (tab_symbols symtab) 24 ;;
  let bad := chk 164 (is_some o) bad in
  o <- get (tab_symbols symtab) 24 ;;
  y <- some o ;;
  let bad := chk 166 (text_eqb (sym_label y) (C "CHKEND")) bad in
  o <- get (tab_symbols symtab) 26 ;;
  let bad := chk 168 (is_some o) bad in
  o <- get (tab_symbols symtab) 26 ;;
  y <- some o ;;
  let bad := chk 170 (text_eqb (sym_label y) (C "SORT8")) bad in
  o <- get (tab_symbols symtab) 21 ;;
  let bad := chk 172 (is_some o) bad in
  o <- get (tab_symbols symtab) 21 ;;
  y <- some o ;;
  let bad := chk 174 (text_eqb (sym_label y) (C "NXTEL")) bad in
  o <- get (tab_symbols symtab) 19 ;;
  let bad := chk 176 (is_some o) bad in
  o <- get (tab_symbols symtab) 19 ;;
  y <- some o ;;
  let bad := chk 178 (text_eqb (sym_label y) (C "OPNING")) bad in
  o <- get (tab_symbols symtab) 33 ;;
  let bad := chk 180 (is_some o) bad in
  o <- get (tab_symbols symtab) 33 ;;
  y <- some o ;;
  let bad := chk 182 (text_eqb (sym_label y) (C "SWAP")) bad in
  o <- get (tab_symbols symtab) 15 ;;
  let bad := chk 184 (is_some o) bad in
  o <- get (tab_symbols symtab) 15 ;;
  y <- some o ;;
  let bad := chk 186 (text_eqb (sym_label y) (C "SORT16")) bad in
  o <- get (tab_symbols symtab) 9 ;;
  let bad := chk 188 (is_some o) bad in
  o <- get (tab_symbols symtab) 9 ;;
  y <- some o ;;
  let bad := chk 190 (text_eqb (sym_label y) (C "SETW")) bad in
  o <- get (tab_symbols symtab) 2 ;;
  let bad := chk 192 (is_some o) bad in
  o <- get (tab_symbols symtab) 2 ;;
  y <- some o ;;
  let bad := chk 194 (text_eqb (sym_label y) (C "REVERSE")) bad in
  Ret (rev bad).
Example test_resize_automatic_passes : test_resize_automatic = Ret [].
Proof. vm_compute. reflexivity. Qed.

