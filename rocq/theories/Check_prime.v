(** Check_prime.v -- generated by tools/tests.py: the unit tests of /repo/tests/prime/test_prime.c run on the model.
    These are tests of the model against the expectations of the authors of the program, not
    proofs of properties: 15 assertions in 1 test functions; 0 assertions and statements without
    counterpart in the model are left out (pointers that are not NULL, the int returned by
    token_strcpy, enum values out of range).  Each computation returns the lines of the test file
    whose assertions fail. *)
From Verif Require Import Base Model_Opcode Model_Error Model_Lexer Model_SymbolTable Model_Parser
  Model_ForwardRef Model_Generator Check_Base.

(** test_next_prime: 15 assertions *)
Definition test_next_prime : M (list Z) :=
  let bad := @nil Z in
  res <- next_prime (1) ;;
  let bad := chk 28 (res =? (2)) bad in
  res <- next_prime (2) ;;
  let bad := chk 29 (res =? (3)) bad in
  res <- next_prime (3) ;;
  let bad := chk 30 (res =? (5)) bad in
  res <- next_prime (4) ;;
  let bad := chk 31 (res =? (5)) bad in
  res <- next_prime (5) ;;
  let bad := chk 32 (res =? (7)) bad in
  res <- next_prime (6) ;;
  let bad := chk 33 (res =? (7)) bad in
  res <- next_prime (7) ;;
  let bad := chk 34 (res =? (11)) bad in
  res <- next_prime (51) ;;
  let bad := chk 35 (res =? (53)) bad in
  res <- next_prime (10) ;;
  let bad := chk 36 (res =? (11)) bad in
  res <- next_prime (12) ;;
  let bad := chk 37 (res =? (13)) bad in
  res <- next_prime (223) ;;
  let bad := chk 38 (res =? (227)) bad in
  res <- next_prime (227) ;;
  let bad := chk 39 (res =? (229)) bad in
  res <- next_prime (17 * 2) ;;
  let bad := chk 41 (res =? (37)) bad in
  res <- next_prime (37 * 2) ;;
  let bad := chk 42 (res =? (79)) bad in
  res <- next_prime (79 * 2) ;;
  let bad := chk 43 (res =? (163)) bad in
  Ret (rev bad).
Example test_next_prime_passes : test_next_prime = Ret [].
Proof. vm_compute. reflexivity. Qed.

