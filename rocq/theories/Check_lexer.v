(** Check_lexer.v -- generated by tools/tests.py: the unit tests of /repo/tests/lexer/test_lexer.c run on the model.
    These are tests of the model against the expectations of the authors of the program, not
    proofs of properties: 739 assertions in 10 test functions; 44 assertions and statements without
    counterpart in the model are left out (pointers that are not NULL, the int returned by
    token_strcpy, enum values out of range).  Each computation returns the lines of the test file
    whose assertions fail. *)
From Verif Require Import Base Model_Opcode Model_Error Model_Lexer Model_SymbolTable Model_Parser
  Model_ForwardRef Model_Generator Check_Base.

(** test_init_destroy_lexer: 17 assertions *)
Definition test_init_destroy_lexer : M (list Z) :=
  let bad := @nil Z in
  let lexer := init_lexer (C "test_init_destroy_lexer.asm") in
  let bad := chk 19 (text_eqb (lx_file lexer) (C "test_init_destroy_lexer.asm")) bad in
  t <- get (lx_seq lexer) (0) ;;
  let bad := chk 22 (ty_eqb (tk_type t) TOKEN_NULL) bad in
  t <- get (lx_seq lexer) (0) ;;
  let bad := chk 24 ((tk_value t) =? (0)) bad in
  t <- get (lx_seq lexer) (1) ;;
  let bad := chk 22 (ty_eqb (tk_type t) TOKEN_NULL) bad in
  t <- get (lx_seq lexer) (1) ;;
  let bad := chk 24 ((tk_value t) =? (0)) bad in
  t <- get (lx_seq lexer) (2) ;;
  let bad := chk 22 (ty_eqb (tk_type t) TOKEN_NULL) bad in
  t <- get (lx_seq lexer) (2) ;;
  let bad := chk 24 ((tk_value t) =? (0)) bad in
  t <- get (lx_seq lexer) (3) ;;
  let bad := chk 22 (ty_eqb (tk_type t) TOKEN_NULL) bad in
  t <- get (lx_seq lexer) (3) ;;
  let bad := chk 24 ((tk_value t) =? (0)) bad in
  t <- get (lx_seq lexer) (4) ;;
  let bad := chk 22 (ty_eqb (tk_type t) TOKEN_NULL) bad in
  t <- get (lx_seq lexer) (4) ;;
  let bad := chk 24 ((tk_value t) =? (0)) bad in
  t <- get (lx_seq lexer) (5) ;;
  let bad := chk 22 (ty_eqb (tk_type t) TOKEN_NULL) bad in
  t <- get (lx_seq lexer) (5) ;;
  let bad := chk 24 ((tk_value t) =? (0)) bad in
  t <- get (lx_seq lexer) (6) ;;
  let bad := chk 22 (ty_eqb (tk_type t) TOKEN_NULL) bad in
  t <- get (lx_seq lexer) (6) ;;
  let bad := chk 24 ((tk_value t) =? (0)) bad in
  t <- get (lx_seq lexer) (7) ;;
  let bad := chk 22 (ty_eqb (tk_type t) TOKEN_NULL) bad in
  t <- get (lx_seq lexer) (7) ;;
  let bad := chk 24 ((tk_value t) =? (0)) bad in
  Ret (rev bad).
Example test_init_destroy_lexer_passes : test_init_destroy_lexer = Ret [].
Proof. vm_compute. reflexivity. Qed.

(** test_token_strcpy: 12 assertions *)
Definition test_token_strcpy : M (list Z) :=
  let bad := @nil Z in
  let tk := init_token in
  tk <- token_strcpy tk (C "LABEL") ;;
  let bad := chk 41 ((Z.of_nat (List.length (tk_str tk))) =? (5)) bad in
  let bad := chk 42 (text_eqb (tk_str tk) (C "LABEL")) bad in
  tk <- token_strcpy tk (C "SEARCH") ;;
  let bad := chk 46 ((Z.of_nat (List.length (tk_str tk))) =? (6)) bad in
  let bad := chk 47 (text_eqb (tk_str tk) (C "SEARCH")) bad in
  tk <- token_strcpy tk (C "CALC") ;;
  let bad := chk 51 ((Z.of_nat (List.length (tk_str tk))) =? (4)) bad in
  let bad := chk 52 (text_eqb (tk_str tk) (C "CALC")) bad in
  tk <- token_strcpy tk (C "TEST_TOKEN_STRCPY") ;;
  let bad := chk 56 ((Z.of_nat (List.length (tk_str tk))) =? (17)) bad in
  let bad := chk 57 (text_eqb (tk_str tk) (C "TEST_TOKEN_STRCPY")) bad in
  tk <- token_strcpy tk (C "") ;;
  let bad := chk 61 (text_eqb (tk_str tk) (C "TEST_TOKEN_STRCPY")) bad in
  let bad := chk 62 ((Z.of_nat (List.length (tk_str tk))) =? (17)) bad in
  let bad := chk 64 (text_eqb (tk_str tk) (C "TEST_TOKEN_STRCPY")) bad in
  let bad := chk 65 ((Z.of_nat (List.length (tk_str tk))) =? (17)) bad in
  Ret (rev bad).
Example test_token_strcpy_passes : test_token_strcpy = Ret [].
Proof. vm_compute. reflexivity. Qed.

(** test_token_strncpy: 13 assertions *)
Definition test_token_strncpy : M (list Z) :=
  let bad := @nil Z in
  let tk := init_token in
  tk <- token_strncpy tk (C "LABEL1 TXA\n") 6 ;;
  let bad := chk 78 (text_eqb (tk_str tk) (C "LABEL1")) bad in
  tk <- token_strncpy tk (C "Loop\tCMP\t$01\n") 4 ;;
  let bad := chk 82 (text_eqb (tk_str tk) (C "LOOP")) bad in
  tk <- token_strncpy tk (C "LoNeLaBeL\n") 9 ;;
  let bad := chk 86 (text_eqb (tk_str tk) (C "LONELABEL")) bad in
  tk <- token_strncpy tk (C "label2,X)\n") 6 ;;
  let bad := chk 90 (text_eqb (tk_str tk) (C "LABEL2")) bad in
  tk <- token_strncpy tk (C "ORA (SOMETHING),Y\n") 3 ;;
  let bad := chk 94 (text_eqb (tk_str tk) (C "ORA")) bad in
  tk <- token_strncpy tk (C "INDIRECT)\n") 8 ;;
  let bad := chk 98 (text_eqb (tk_str tk) (C "INDIRECT")) bad in
  tk <- token_strncpy tk (C "PLA ;hi") 3 ;;
  let bad := chk 102 (text_eqb (tk_str tk) (C "PLA")) bad in
  tk <- token_strncpy tk (C "LDX\tNUM\n") 3 ;;
  let bad := chk 106 (text_eqb (tk_str tk) (C "LDX")) bad in
  tk <- token_strncpy tk (C "X\n") 1 ;;
  let bad := chk 110 (text_eqb (tk_str tk) (C "X")) bad in
  tk <- token_strncpy tk (C "Y\n") 1 ;;
  let bad := chk 114 (text_eqb (tk_str tk) (C "Y")) bad in
  tk <- token_strncpy tk (C "A\n") 1 ;;
  let bad := chk 118 (text_eqb (tk_str tk) (C "A")) bad in
  tk <- token_strncpy tk (C "XNOTREGISTER\t;comment\n") 12 ;;
  let bad := chk 122 (text_eqb (tk_str tk) (C "XNOTREGISTER")) bad in
  tk <- token_strncpy tk (C "YNOTREGISTER    ; comment again\n") 12 ;;
  let bad := chk 126 (text_eqb (tk_str tk) (C "YNOTREGISTER")) bad in
  Ret (rev bad).
Example test_token_strncpy_passes : test_token_strncpy = Ret [].
Proof. vm_compute. reflexivity. Qed.

(** test_add_token: 46 assertions *)
Definition test_add_token : M (list Z) :=
  let bad := @nil Z in
  let lexer := init_lexer (C "test_add_token.asm") in
  let bad := chk 136 ((lx_curr lexer) =? (0)) bad in
  let tk := init_token in
  let tk := tk_set_type tk TOKEN_LABEL in
  tk <- token_strcpy tk (C "CHKEND") ;;
  let tk := tk_set_value tk 4096 in
  '(res, lexer, _) <- add_token lexer tk ;;
  let bad := chk 145 (res =? TOKEN_INSERTION_SUCCESS) bad in
  prev <- get (lx_seq lexer) (lx_curr lexer - 1) ;;
  let bad := chk 149 (ty_eqb (tk_type prev) TOKEN_LABEL) bad in
  let bad := chk 150 (text_eqb (tk_str prev) (C "CHKEND")) bad in
  let bad := chk 151 ((tk_value prev) =? 4096) bad in
  let bad := chk 153 ((lx_curr lexer) =? (1)) bad in
  '(res, lexer, _) <- add_token lexer tk ;;
  let bad := chk 156 (res =? TOKEN_INSERTION_SUCCESS) bad in
  let bad := chk 157 ((lx_curr lexer) =? (2)) bad in
  '(res, lexer, _) <- add_token lexer tk ;;
  let bad := chk 158 (res =? TOKEN_INSERTION_SUCCESS) bad in
  let bad := chk 159 ((lx_curr lexer) =? (3)) bad in
  '(res, lexer, _) <- add_token lexer tk ;;
  let bad := chk 160 (res =? TOKEN_INSERTION_SUCCESS) bad in
  let bad := chk 161 ((lx_curr lexer) =? (4)) bad in
  '(res, lexer, _) <- add_token lexer tk ;;
  let bad := chk 162 (res =? TOKEN_INSERTION_SUCCESS) bad in
  let bad := chk 163 ((lx_curr lexer) =? (5)) bad in
  '(res, lexer, _) <- add_token lexer tk ;;
  let bad := chk 164 (res =? TOKEN_INSERTION_SUCCESS) bad in
  let bad := chk 165 ((lx_curr lexer) =? (6)) bad in
  '(res, lexer, _) <- add_token lexer tk ;;
  let bad := chk 166 (res =? TOKEN_INSERTION_SUCCESS) bad in
  let bad := chk 167 ((lx_curr lexer) =? (7)) bad in
  '(res, lexer, _) <- add_token lexer tk ;;
  let bad := chk 168 (res =? TOKEN_INSERTION_SUCCESS) bad in
  let bad := chk 169 ((lx_curr lexer) =? (8)) bad in
  curr <- get (lx_seq lexer) (0) ;;
  let bad := chk 175 (ty_eqb (tk_type curr) TOKEN_LABEL) bad in
  let bad := chk 176 (text_eqb (tk_str curr) (C "CHKEND")) bad in
  let bad := chk 177 ((tk_value curr) =? 4096) bad in
  curr <- get (lx_seq lexer) (1) ;;
  let bad := chk 175 (ty_eqb (tk_type curr) TOKEN_LABEL) bad in
  let bad := chk 176 (text_eqb (tk_str curr) (C "CHKEND")) bad in
  let bad := chk 177 ((tk_value curr) =? 4096) bad in
  curr <- get (lx_seq lexer) (2) ;;
  let bad := chk 175 (ty_eqb (tk_type curr) TOKEN_LABEL) bad in
  let bad := chk 176 (text_eqb (tk_str curr) (C "CHKEND")) bad in
  let bad := chk 177 ((tk_value curr) =? 4096) bad in
  curr <- get (lx_seq lexer) (3) ;;
  let bad := chk 175 (ty_eqb (tk_type curr) TOKEN_LABEL) bad in
  let bad := chk 176 (text_eqb (tk_str curr) (C "CHKEND")) bad in
  let bad := chk 177 ((tk_value curr) =? 4096) bad in
  curr <- get (lx_seq lexer) (4) ;;
  let bad := chk 175 (ty_eqb (tk_type curr) TOKEN_LABEL) bad in
  let bad := chk 176 (text_eqb (tk_str curr) (C "CHKEND")) bad in
  let bad := chk 177 ((tk_value curr) =? 4096) bad in
  curr <- get (lx_seq lexer) (5) ;;
  let bad := chk 175 (ty_eqb (tk_type curr) TOKEN_LABEL) bad in
  let bad := chk 176 (text_eqb (tk_str curr) (C "CHKEND")) bad in
  let bad := chk 177 ((tk_value curr) =? 4096) bad in
  curr <- get (lx_seq lexer) (6) ;;
  let bad := chk 175 (ty_eqb (tk_type curr) TOKEN_LABEL) bad in
  let bad := chk 176 (text_eqb (tk_str curr) (C "CHKEND")) bad in
  let bad := chk 177 ((tk_value curr) =? 4096) bad in
  curr <- get (lx_seq lexer) (7) ;;
  let bad := chk 175 (ty_eqb (tk_type curr) TOKEN_LABEL) bad in
  let bad := chk 176 (text_eqb (tk_str curr) (C "CHKEND")) bad in
  let bad := chk 177 ((tk_value curr) =? 4096) bad in
  '(res, lexer, _) <- add_token lexer tk ;;
  let bad := chk 181 (res =? ERROR_TOO_MANY_TOKENS) bad in
  let bad := chk 182 ((lx_curr lexer) =? (8)) bad in
  Ret (rev bad).
Example test_add_token_passes : test_add_token = Ret [].
Proof. vm_compute. reflexivity. Qed.

(** test_lex_literal: 176 assertions *)
Definition test_lex_literal : M (list Z) :=
  let bad := @nil Z in
  let tk := init_token in
  let '(res, tk) := lex_literal 0 (C "abc") tk in
  let bad := chk 195 (res =? ERROR_ILLEGAL_CHAR) bad in
  let bad := chk 196 (opt_n_eqb (tk_error_char tk) (Some 0%nat)) bad in
  let '(res, tk) := lex_literal 0 (C "@!#$") tk in
  let bad := chk 198 (res =? ERROR_ILLEGAL_CHAR) bad in
  let bad := chk 199 (opt_n_eqb (tk_error_char tk) (Some 0%nat)) bad in
  let '(res, tk) := lex_literal 0 (C ";") tk in
  let bad := chk 201 (res =? ERROR_ILLEGAL_CHAR) bad in
  let bad := chk 202 (opt_n_eqb (tk_error_char tk) (Some 0%nat)) bad in
  let '(res, tk) := lex_literal 0 (C "") tk in
  let bad := chk 204 (res =? ERROR_ILLEGAL_CHAR) bad in
  let bad := chk 205 (opt_n_eqb (tk_error_char tk) (Some 0%nat)) bad in
  let '(res, tk) := lex_literal 0 (C "\t\n") tk in
  let bad := chk 207 (res =? ERROR_ILLEGAL_CHAR) bad in
  let bad := chk 208 (opt_n_eqb (tk_error_char tk) (Some 0%nat)) bad in
  let '(res, tk) := lex_literal 0 (C "$1234") tk in
  let bad := chk 213 (res =? (5)) bad in
  let bad := chk 214 (ty_eqb (tk_type tk) TOKEN_LITERAL) bad in
  let bad := chk 215 ((tk_value tk) =? 4660) bad in
  let '(res, tk) := lex_literal 0 (C "$FACE\n") tk in
  let bad := chk 216 (res =? (5)) bad in
  let bad := chk 217 (ty_eqb (tk_type tk) TOKEN_LITERAL) bad in
  let bad := chk 218 ((tk_value tk) =? 64206) bad in
  let '(res, tk) := lex_literal 0 (C "$DEAD\t") tk in
  let bad := chk 219 (res =? (5)) bad in
  let bad := chk 220 (ty_eqb (tk_type tk) TOKEN_LITERAL) bad in
  let bad := chk 221 ((tk_value tk) =? 57005) bad in
  let '(res, tk) := lex_literal 0 (C "$A00B\t") tk in
  let bad := chk 222 (res =? (5)) bad in
  let bad := chk 223 (ty_eqb (tk_type tk) TOKEN_LITERAL) bad in
  let bad := chk 224 ((tk_value tk) =? 40971) bad in
  let '(res, tk) := lex_literal 0 (C "$0BEE") tk in
  let bad := chk 225 (res =? (5)) bad in
  let bad := chk 226 (ty_eqb (tk_type tk) TOKEN_LITERAL) bad in
  let bad := chk 227 ((tk_value tk) =? 3054) bad in
  let '(res, tk) := lex_literal 0 (C "$005A") tk in
  let bad := chk 228 (res =? (5)) bad in
  let bad := chk 229 (ty_eqb (tk_type tk) TOKEN_LITERAL) bad in
  let bad := chk 230 ((tk_value tk) =? 90) bad in
  let '(res, tk) := lex_literal 0 (C "$0001") tk in
  let bad := chk 231 (res =? (5)) bad in
  let bad := chk 232 (ty_eqb (tk_type tk) TOKEN_LITERAL) bad in
  let bad := chk 233 ((tk_value tk) =? 1) bad in
  let '(res, tk) := lex_literal 0 (C "$0A0 ; lol comment") tk in
  let bad := chk 234 (res =? (4)) bad in
  let bad := chk 235 (ty_eqb (tk_type tk) TOKEN_LITERAL) bad in
  let bad := chk 236 ((tk_value tk) =? 160) bad in
  let '(res, tk) := lex_literal 0 (C "$face\n") tk in
  let bad := chk 238 (res =? (5)) bad in
  let bad := chk 239 (ty_eqb (tk_type tk) TOKEN_LITERAL) bad in
  let bad := chk 240 ((tk_value tk) =? 64206) bad in
  let '(res, tk) := lex_literal 0 (C "$0000dead\t") tk in
  let bad := chk 241 (res =? (9)) bad in
  let bad := chk 242 (ty_eqb (tk_type tk) TOKEN_LITERAL) bad in
  let bad := chk 243 ((tk_value tk) =? 57005) bad in
  let '(res, tk) := lex_literal 0 (C "$bee") tk in
  let bad := chk 244 (res =? (4)) bad in
  let bad := chk 245 (ty_eqb (tk_type tk) TOKEN_LITERAL) bad in
  let bad := chk 246 ((tk_value tk) =? 3054) bad in
  let '(res, tk) := lex_literal 0 (C "$5a") tk in
  let bad := chk 247 (res =? (3)) bad in
  let bad := chk 248 (ty_eqb (tk_type tk) TOKEN_LITERAL) bad in
  let bad := chk 249 ((tk_value tk) =? 90) bad in
  let '(res, tk) := lex_literal 0 (C "$ace\t\t\t") tk in
  let bad := chk 250 (res =? (4)) bad in
  let bad := chk 251 (ty_eqb (tk_type tk) TOKEN_LITERAL) bad in
  let bad := chk 252 ((tk_value tk) =? 2766) bad in
  let '(res, tk) := lex_literal 0 (C "$ff") tk in
  let bad := chk 253 (res =? (3)) bad in
  let bad := chk 254 (ty_eqb (tk_type tk) TOKEN_LITERAL) bad in
  let bad := chk 255 ((tk_value tk) =? 255) bad in
  let '(res, tk) := lex_literal 0 (C "$ab\t;AAAAAAAAAA\n") tk in
  let bad := chk 257 (res =? (3)) bad in
  let bad := chk 258 (ty_eqb (tk_type tk) TOKEN_LITERAL) bad in
  let bad := chk 259 ((tk_value tk) =? 171) bad in
  let '(res, tk) := lex_literal 0 (C "$1") tk in
  let bad := chk 260 (res =? (2)) bad in
  let bad := chk 261 (ty_eqb (tk_type tk) TOKEN_LITERAL) bad in
  let bad := chk 262 ((tk_value tk) =? 1) bad in
  let '(res, tk) := lex_literal 0 (C "$0c") tk in
  let bad := chk 263 (res =? (3)) bad in
  let bad := chk 264 (ty_eqb (tk_type tk) TOKEN_LITERAL) bad in
  let bad := chk 265 ((tk_value tk) =? 12) bad in
  let '(res, tk) := lex_literal 0 (C "$000000000a") tk in
  let bad := chk 266 (res =? (11)) bad in
  let bad := chk 267 (ty_eqb (tk_type tk) TOKEN_LITERAL) bad in
  let bad := chk 268 ((tk_value tk) =? 10) bad in
  let '(res, tk) := lex_literal 0 (C "$0000") tk in
  let bad := chk 269 (res =? (5)) bad in
  let bad := chk 270 (ty_eqb (tk_type tk) TOKEN_LITERAL) bad in
  let bad := chk 271 ((tk_value tk) =? 0) bad in
  let '(res, tk) := lex_literal 0 (C "$00000000") tk in
  let bad := chk 272 (res =? (9)) bad in
  let bad := chk 273 (ty_eqb (tk_type tk) TOKEN_LITERAL) bad in
  let bad := chk 274 ((tk_value tk) =? 0) bad in
  let '(res, tk) := lex_literal 0 (C "$0000000000000000") tk in
  let bad := chk 275 (res =? (17)) bad in
  let bad := chk 276 (ty_eqb (tk_type tk) TOKEN_LITERAL) bad in
  let bad := chk 277 ((tk_value tk) =? 0) bad in
  let '(res, tk) := lex_literal 0 (C "$FFFFFFF") tk in
  let bad := chk 281 (res =? ERROR_TOO_BIG_LITERAL) bad in
  let bad := chk 282 (opt_n_eqb (tk_error_char tk) (Some 0%nat)) bad in
  let '(res, tk) := lex_literal 0 (C "$1234567890ABCDEF") tk in
  let bad := chk 284 (res =? ERROR_TOO_BIG_LITERAL) bad in
  let bad := chk 285 (opt_n_eqb (tk_error_char tk) (Some 0%nat)) bad in
  let '(res, tk) := lex_literal 0 (C "$10000") tk in
  let bad := chk 287 (res =? ERROR_TOO_BIG_LITERAL) bad in
  let bad := chk 288 (opt_n_eqb (tk_error_char tk) (Some 0%nat)) bad in
  let '(res, tk) := lex_literal 0 (C "$\n") tk in
  let bad := chk 290 (res =? ERROR_ILLEGAL_CHAR) bad in
  let bad := chk 291 (opt_n_eqb (tk_error_char tk) (Some 1%nat)) bad in
  let '(res, tk) := lex_literal 0 (C "%11111111") tk in
  let bad := chk 296 (res =? (9)) bad in
  let bad := chk 297 (ty_eqb (tk_type tk) TOKEN_LITERAL) bad in
  let bad := chk 298 ((tk_value tk) =? 255) bad in
  let '(res, tk) := lex_literal 0 (C "%01010001") tk in
  let bad := chk 299 (res =? (9)) bad in
  let bad := chk 300 (ty_eqb (tk_type tk) TOKEN_LITERAL) bad in
  let bad := chk 301 ((tk_value tk) =? 81) bad in
  let '(res, tk) := lex_literal 0 (C "%00000000\n") tk in
  let bad := chk 302 (res =? (9)) bad in
  let bad := chk 303 (ty_eqb (tk_type tk) TOKEN_LITERAL) bad in
  let bad := chk 304 ((tk_value tk) =? 0) bad in
  let '(res, tk) := lex_literal 0 (C "%10000001") tk in
  let bad := chk 305 (res =? (9)) bad in
  let bad := chk 306 (ty_eqb (tk_type tk) TOKEN_LITERAL) bad in
  let bad := chk 307 ((tk_value tk) =? 129) bad in
  let '(res, tk) := lex_literal 0 (C "%1111111100001110") tk in
  let bad := chk 308 (res =? (17)) bad in
  let bad := chk 309 (ty_eqb (tk_type tk) TOKEN_LITERAL) bad in
  let bad := chk 310 ((tk_value tk) =? 65294) bad in
  let '(res, tk) := lex_literal 0 (C "%10101010101\t\t") tk in
  let bad := chk 311 (res =? (12)) bad in
  let bad := chk 312 (ty_eqb (tk_type tk) TOKEN_LITERAL) bad in
  let bad := chk 313 ((tk_value tk) =? 1365) bad in
  let '(res, tk) := lex_literal 0 (C "%0") tk in
  let bad := chk 314 (res =? (2)) bad in
  let bad := chk 315 (ty_eqb (tk_type tk) TOKEN_LITERAL) bad in
  let bad := chk 316 ((tk_value tk) =? 0) bad in
  let '(res, tk) := lex_literal 0 (C "%00000") tk in
  let bad := chk 317 (res =? (6)) bad in
  let bad := chk 318 (ty_eqb (tk_type tk) TOKEN_LITERAL) bad in
  let bad := chk 319 ((tk_value tk) =? 0) bad in
  let '(res, tk) := lex_literal 0 (C "%00001001\t\t") tk in
  let bad := chk 320 (res =? (9)) bad in
  let bad := chk 321 (ty_eqb (tk_type tk) TOKEN_LITERAL) bad in
  let bad := chk 322 ((tk_value tk) =? 9) bad in
  let '(res, tk) := lex_literal 0 (C "%00001111111111111111") tk in
  let bad := chk 323 (res =? (21)) bad in
  let bad := chk 324 (ty_eqb (tk_type tk) TOKEN_LITERAL) bad in
  let bad := chk 325 ((tk_value tk) =? 65535) bad in
  let '(res, tk) := lex_literal 0 (C "%10001111111111111111") tk in
  let bad := chk 328 (res =? ERROR_TOO_BIG_LITERAL) bad in
  let bad := chk 329 (opt_n_eqb (tk_error_char tk) (Some 0%nat)) bad in
  let '(res, tk) := lex_literal 0 (C "%111111111111111111111111111111") tk in
  let bad := chk 331 (res =? ERROR_TOO_BIG_LITERAL) bad in
  let bad := chk 332 (opt_n_eqb (tk_error_char tk) (Some 0%nat)) bad in
  let '(res, tk) := lex_literal 0 (C "%1010101010101010101010101010101010101010101010101010110101010101") tk in
  let bad := chk 334 (res =? ERROR_TOO_BIG_LITERAL) bad in
  let bad := chk 335 (opt_n_eqb (tk_error_char tk) (Some 0%nat)) bad in
  let '(res, tk) := lex_literal 0 (C "%\n") tk in
  let bad := chk 337 (res =? ERROR_ILLEGAL_CHAR) bad in
  let bad := chk 338 (opt_n_eqb (tk_error_char tk) (Some 1%nat)) bad in
  let '(res, tk) := lex_literal 0 (C "%101002\n") tk in
  let bad := chk 340 (res =? ERROR_ILLEGAL_CHAR) bad in
  let bad := chk 341 (opt_n_eqb (tk_error_char tk) (Some 6%nat)) bad in
  let '(res, tk) := lex_literal 0 (C "1234") tk in
  let bad := chk 346 (res =? (4)) bad in
  let bad := chk 347 (ty_eqb (tk_type tk) TOKEN_LITERAL) bad in
  let bad := chk 348 ((tk_value tk) =? (1234)) bad in
  let '(res, tk) := lex_literal 0 (C "65535") tk in
  let bad := chk 349 (res =? (5)) bad in
  let bad := chk 350 (ty_eqb (tk_type tk) TOKEN_LITERAL) bad in
  let bad := chk 351 ((tk_value tk) =? (65535)) bad in
  let '(res, tk) := lex_literal 0 (C "0") tk in
  let bad := chk 352 (res =? (1)) bad in
  let bad := chk 353 (ty_eqb (tk_type tk) TOKEN_LITERAL) bad in
  let bad := chk 354 ((tk_value tk) =? (0)) bad in
  let '(res, tk) := lex_literal 0 (C "25") tk in
  let bad := chk 355 (res =? (2)) bad in
  let bad := chk 356 (ty_eqb (tk_type tk) TOKEN_LITERAL) bad in
  let bad := chk 357 ((tk_value tk) =? (25)) bad in
  let '(res, tk) := lex_literal 0 (C "800") tk in
  let bad := chk 358 (res =? (3)) bad in
  let bad := chk 359 (ty_eqb (tk_type tk) TOKEN_LITERAL) bad in
  let bad := chk 360 ((tk_value tk) =? (800)) bad in
  let '(res, tk) := lex_literal 0 (C "000000000100") tk in
  let bad := chk 361 (res =? (12)) bad in
  let bad := chk 362 (ty_eqb (tk_type tk) TOKEN_LITERAL) bad in
  let bad := chk 363 ((tk_value tk) =? (100)) bad in
  let '(res, tk) := lex_literal 0 (C "123456789") tk in
  let bad := chk 366 (res =? ERROR_TOO_BIG_LITERAL) bad in
  let bad := chk 367 (opt_n_eqb (tk_error_char tk) (Some 0%nat)) bad in
  let '(res, tk) := lex_literal 0 (C "65536") tk in
  let bad := chk 369 (res =? ERROR_TOO_BIG_LITERAL) bad in
  let bad := chk 370 (opt_n_eqb (tk_error_char tk) (Some 0%nat)) bad in
  let '(res, tk) := lex_literal 0 (C "A") tk in
  let bad := chk 372 (res =? ERROR_ILLEGAL_CHAR) bad in
  let bad := chk 373 (opt_n_eqb (tk_error_char tk) (Some 0%nat)) bad in
  let '(res, tk) := lex_literal 0 (C "ffff") tk in
  let bad := chk 375 (res =? ERROR_ILLEGAL_CHAR) bad in
  let bad := chk 376 (opt_n_eqb (tk_error_char tk) (Some 0%nat)) bad in
  let '(res, tk) := lex_literal 0 (C "25             ") tk in
  let bad := chk 381 (res =? (2)) bad in
  let bad := chk 382 (ty_eqb (tk_type tk) TOKEN_LITERAL) bad in
  let bad := chk 383 ((tk_value tk) =? (25)) bad in
  let '(res, tk) := lex_literal 0 (C "128\t;hi\n") tk in
  let bad := chk 385 (res =? (3)) bad in
  let bad := chk 386 (ty_eqb (tk_type tk) TOKEN_LITERAL) bad in
  let bad := chk 387 ((tk_value tk) =? (128)) bad in
  let '(res, tk) := lex_literal 0 (C "800\n") tk in
  let bad := chk 389 (res =? (3)) bad in
  let bad := chk 390 (ty_eqb (tk_type tk) TOKEN_LITERAL) bad in
  let bad := chk 391 ((tk_value tk) =? (800)) bad in
  let '(res, tk) := lex_literal 0 (C "$ffff,X\n") tk in
  let bad := chk 393 (res =? (5)) bad in
  let bad := chk 394 (ty_eqb (tk_type tk) TOKEN_LITERAL) bad in
  let bad := chk 395 ((tk_value tk) =? 65535) bad in
  let '(res, tk) := lex_literal 0 (C "%10101111),Y\t;comment\n") tk in
  let bad := chk 397 (res =? (9)) bad in
  let bad := chk 398 (ty_eqb (tk_type tk) TOKEN_LITERAL) bad in
  let bad := chk 399 ((tk_value tk) =? 175) bad in
  let '(res, tk) := lex_literal 0 (C "64;comment\n") tk in
  let bad := chk 401 (res =? (2)) bad in
  let bad := chk 402 (ty_eqb (tk_type tk) TOKEN_LITERAL) bad in
  let bad := chk 403 ((tk_value tk) =? (64)) bad in
  let '(res, tk) := lex_literal 0 (C "5555(wtf),Y\n") tk in
  let bad := chk 406 (res =? (4)) bad in
  let bad := chk 407 (ty_eqb (tk_type tk) TOKEN_LITERAL) bad in
  let bad := chk 408 ((tk_value tk) =? (5555)) bad in
  let '(res, tk) := lex_literal 0 (C "800!!!!!!SDJGHJSDHFSDKVNSFULM") tk in
  let bad := chk 414 (res =? ERROR_ILLEGAL_CHAR) bad in
  let bad := chk 415 (opt_n_eqb (tk_error_char tk) (Some 3%nat)) bad in
  let '(res, tk) := lex_literal 0 (C "$facq") tk in
  let bad := chk 417 (res =? ERROR_ILLEGAL_CHAR) bad in
  let bad := chk 418 (opt_n_eqb (tk_error_char tk) (Some 4%nat)) bad in
  let '(res, tk) := lex_literal 0 (C "%10102") tk in
  let bad := chk 420 (res =? ERROR_ILLEGAL_CHAR) bad in
  let bad := chk 421 (opt_n_eqb (tk_error_char tk) (Some 5%nat)) bad in
  let '(res, tk) := lex_literal 0 (C "%ABCD") tk in
  let bad := chk 423 (res =? ERROR_ILLEGAL_CHAR) bad in
  let bad := chk 424 (opt_n_eqb (tk_error_char tk) (Some 1%nat)) bad in
  Ret (rev bad).
Example test_lex_literal_passes : test_lex_literal = Ret [].
Proof. vm_compute. reflexivity. Qed.

(** test_lex_instruction: 20 assertions *)
Definition test_lex_instruction : M (list Z) :=
  let bad := @nil Z in
  let tk := init_token in
  let instr := init_instruction in
  tk <- token_strncpy tk (C "ADC") 3 ;;
  let bad := chk 438 (text_eqb (tk_str tk) (C "ADC")) bad in
  let '(res, tk, instr) := lex_instruction tk instr in
  let bad := chk 439 (res =? (3)) bad in
  let bad := chk 440 (mn_eqb (i_mnemonic instr) ADC) bad in
  let bad := chk 441 ((i_bitfield instr) =? ADC_BITFIELD) bad in
  tk <- token_strncpy tk (C "jsr") 3 ;;
  let bad := chk 445 (text_eqb (tk_str tk) (C "JSR")) bad in
  let '(res, tk, instr) := lex_instruction tk instr in
  let bad := chk 446 (res =? (3)) bad in
  let bad := chk 447 (mn_eqb (i_mnemonic instr) JSR) bad in
  let bad := chk 448 ((i_bitfield instr) =? JSR_BITFIELD) bad in
  tk <- token_strncpy tk (C "bEq") 3 ;;
  let bad := chk 451 (text_eqb (tk_str tk) (C "BEQ")) bad in
  let '(res, tk, instr) := lex_instruction tk instr in
  let bad := chk 452 (res =? (3)) bad in
  let bad := chk 453 (mn_eqb (i_mnemonic instr) BEQ) bad in
  let bad := chk 454 ((i_bitfield instr) =? BEQ_BITFIELD) bad in
  tk <- token_strncpy tk (C "badinstruction") 14 ;;
  let bad := chk 457 (text_eqb (tk_str tk) (C "BADINSTRUCTION")) bad in
  let '(res, tk, instr) := lex_instruction tk instr in
  let bad := chk 458 (res =? ERROR_INSTRUCTION_NOT_FOUND) bad in
  let bad := chk 460 (mn_eqb (i_mnemonic instr) BEQ) bad in
  let bad := chk 461 ((i_bitfield instr) =? BEQ_BITFIELD) bad in
  tk <- token_strncpy tk (C "LdA") 3 ;;
  let bad := chk 464 (text_eqb (tk_str tk) (C "LDA")) bad in
  let '(res, tk, instr) := lex_instruction tk instr in
  let bad := chk 465 (res =? (3)) bad in
  let bad := chk 466 (mn_eqb (i_mnemonic instr) LDA) bad in
  let bad := chk 467 ((i_bitfield instr) =? LDA_BITFIELD) bad in
  Ret (rev bad).
Example test_lex_instruction_passes : test_lex_instruction = Ret [].
Proof. vm_compute. reflexivity. Qed.

(** test_lex_directive: 30 assertions *)
Definition test_lex_directive : M (list Z) :=
  let bad := @nil Z in
  let tk := init_token in
  '(res, tk) <- lex_directive 0 (C ".EQU") tk ;;
  let bad := chk 480 (res =? (4)) bad in
  let bad := chk 481 (ty_eqb (tk_type tk) TOKEN_EQU_DIRECTIVE) bad in
  let bad := chk 482 (text_eqb (tk_str tk) (C ".EQU")) bad in
  '(res, tk) <- lex_directive 0 (C ".equ") tk ;;
  let bad := chk 484 (res =? (4)) bad in
  let bad := chk 485 (ty_eqb (tk_type tk) TOKEN_EQU_DIRECTIVE) bad in
  let bad := chk 486 (text_eqb (tk_str tk) (C ".EQU")) bad in
  '(res, tk) <- lex_directive 0 (C ".ORG") tk ;;
  let bad := chk 489 (res =? (4)) bad in
  let bad := chk 490 (ty_eqb (tk_type tk) TOKEN_ORG_DIRECTIVE) bad in
  let bad := chk 491 (text_eqb (tk_str tk) (C ".ORG")) bad in
  '(res, tk) <- lex_directive 0 (C ".org") tk ;;
  let bad := chk 493 (res =? (4)) bad in
  let bad := chk 494 (ty_eqb (tk_type tk) TOKEN_ORG_DIRECTIVE) bad in
  let bad := chk 495 (text_eqb (tk_str tk) (C ".ORG")) bad in
  '(res, tk) <- lex_directive 0 (C ".DEFINE") tk ;;
  let bad := chk 498 (res =? (7)) bad in
  let bad := chk 499 (ty_eqb (tk_type tk) TOKEN_DEFINE_DIRECTIVE) bad in
  let bad := chk 500 (text_eqb (tk_str tk) (C ".DEFINE")) bad in
  '(res, tk) <- lex_directive 0 (C ".define") tk ;;
  let bad := chk 502 (res =? (7)) bad in
  let bad := chk 503 (ty_eqb (tk_type tk) TOKEN_DEFINE_DIRECTIVE) bad in
  let bad := chk 504 (text_eqb (tk_str tk) (C ".DEFINE")) bad in
  '(res, tk) <- lex_directive 0 (C ".END") tk ;;
  let bad := chk 507 (res =? (4)) bad in
  let bad := chk 508 (ty_eqb (tk_type tk) TOKEN_END_DIRECTIVE) bad in
  let bad := chk 509 (text_eqb (tk_str tk) (C ".END")) bad in
  '(res, tk) <- lex_directive 0 (C ".end") tk ;;
  let bad := chk 511 (res =? (4)) bad in
  let bad := chk 512 (ty_eqb (tk_type tk) TOKEN_END_DIRECTIVE) bad in
  let bad := chk 513 (text_eqb (tk_str tk) (C ".END")) bad in
  '(res, tk) <- lex_directive 0 (C ".BADDIRECTIVE") tk ;;
  let bad := chk 516 (res =? ERROR_ILLEGAL_DIRECTIVE) bad in
  let bad := chk 517 (opt_n_eqb (tk_error_char tk) (Some 0%nat)) bad in
  '(res, tk) <- lex_directive 0 (C ".WTF_CHAR") tk ;;
  let bad := chk 520 (res =? ERROR_ILLEGAL_CHAR) bad in
  let bad := chk 521 (opt_n_eqb (tk_error_char tk) (Some 4%nat)) bad in
  '(res, tk) <- lex_directive 0 (C ".TOOLONGWTFTOOLONGWTFTOOLONGWTFTOOLONGWTFTOOLONGWTFTOOLONGWTFABCD") tk ;;
  let bad := chk 523 (res =? ERROR_ILLEGAL_DIRECTIVE) bad in
  let bad := chk 524 (opt_n_eqb (tk_error_char tk) (Some 0%nat)) bad in
  Ret (rev bad).
Example test_lex_directive_passes : test_lex_directive = Ret [].
Proof. vm_compute. reflexivity. Qed.

(** test_lex_text: 89 assertions *)
Definition test_lex_text : M (list Z) :=
  let bad := @nil Z in
  let tk := init_token in
  let instr := init_instruction in
  '(res, tk, instr) <- lex_text 0 (C "LABEL1 TXA\n") tk instr ;;
  let bad := chk 538 (res =? (6)) bad in
  let bad := chk 539 (ty_eqb (tk_type tk) TOKEN_LABEL) bad in
  let bad := chk 540 (text_eqb (tk_str tk) (C "LABEL1")) bad in
  '(res, tk, instr) <- lex_text 0 (C "LABEL1: TXA\n") tk instr ;;
  let bad := chk 543 (res =? (6)) bad in
  let bad := chk 544 (ty_eqb (tk_type tk) TOKEN_LABEL) bad in
  let bad := chk 545 (text_eqb (tk_str tk) (C "LABEL1")) bad in
  '(res, tk, instr) <- lex_text 0 (C "Loop\tCMP\t$01\n") tk instr ;;
  let bad := chk 548 (res =? (4)) bad in
  let bad := chk 549 (ty_eqb (tk_type tk) TOKEN_LABEL) bad in
  let bad := chk 551 (text_eqb (tk_str tk) (C "LOOP")) bad in
  '(res, tk, instr) <- lex_text 0 (C "LoNeLaBeL\n") tk instr ;;
  let bad := chk 554 (res =? (9)) bad in
  let bad := chk 555 (ty_eqb (tk_type tk) TOKEN_LABEL) bad in
  let bad := chk 556 (text_eqb (tk_str tk) (C "LONELABEL")) bad in
  '(res, tk, instr) <- lex_text 0 (C "LoNeLaBeL:\n") tk instr ;;
  let bad := chk 559 (res =? (9)) bad in
  let bad := chk 560 (ty_eqb (tk_type tk) TOKEN_LABEL) bad in
  let bad := chk 561 (text_eqb (tk_str tk) (C "LONELABEL")) bad in
  '(res, tk, instr) <- lex_text 0 (C "label2,X)\n") tk instr ;;
  let bad := chk 564 (res =? (6)) bad in
  let bad := chk 565 (ty_eqb (tk_type tk) TOKEN_LABEL) bad in
  let bad := chk 566 (text_eqb (tk_str tk) (C "LABEL2")) bad in
  '(res, tk, instr) <- lex_text 0 (C "INDIRECT)\n") tk instr ;;
  let bad := chk 569 (res =? (8)) bad in
  let bad := chk 570 (ty_eqb (tk_type tk) TOKEN_LABEL) bad in
  let bad := chk 571 (text_eqb (tk_str tk) (C "INDIRECT")) bad in
  '(res, tk, instr) <- lex_text 0 (C "SORT;comment\n") tk instr ;;
  let bad := chk 574 (res =? (4)) bad in
  let bad := chk 575 (ty_eqb (tk_type tk) TOKEN_LABEL) bad in
  let bad := chk 576 (text_eqb (tk_str tk) (C "SORT")) bad in
  '(res, tk, instr) <- lex_text 0 (C "ORA (SOMETHING),Y\n") tk instr ;;
  let bad := chk 579 (res =? (3)) bad in
  let bad := chk 580 (text_eqb (tk_str tk) (C "ORA")) bad in
  let bad := chk 581 (ty_eqb (tk_type tk) TOKEN_INSTRUCTION) bad in
  let bad := chk 582 (mn_eqb (i_mnemonic instr) ORA) bad in
  let bad := chk 583 ((i_bitfield instr) =? ORA_BITFIELD) bad in
  '(res, tk, instr) <- lex_text 0 (C "PLA ;hi") tk instr ;;
  let bad := chk 586 (res =? (3)) bad in
  let bad := chk 587 (text_eqb (tk_str tk) (C "PLA")) bad in
  let bad := chk 588 (ty_eqb (tk_type tk) TOKEN_INSTRUCTION) bad in
  let bad := chk 589 (mn_eqb (i_mnemonic instr) PLA) bad in
  let bad := chk 590 ((i_bitfield instr) =? PLA_BITFIELD) bad in
  '(res, tk, instr) <- lex_text 0 (C "LDX\tNUM\n") tk instr ;;
  let bad := chk 593 (res =? (3)) bad in
  let bad := chk 594 (text_eqb (tk_str tk) (C "LDX")) bad in
  let bad := chk 595 (ty_eqb (tk_type tk) TOKEN_INSTRUCTION) bad in
  let bad := chk 596 (mn_eqb (i_mnemonic instr) LDX) bad in
  let bad := chk 597 ((i_bitfield instr) =? LDX_BITFIELD) bad in
  '(res, tk, instr) <- lex_text 0 (C "X\n") tk instr ;;
  let bad := chk 600 (res =? (1)) bad in
  let bad := chk 601 (text_eqb (tk_str tk) (C "X")) bad in
  let bad := chk 602 (ty_eqb (tk_type tk) TOKEN_X_REGISTER) bad in
  '(res, tk, instr) <- lex_text 0 (C "Y\n") tk instr ;;
  let bad := chk 605 (res =? (1)) bad in
  let bad := chk 606 (text_eqb (tk_str tk) (C "Y")) bad in
  let bad := chk 607 (ty_eqb (tk_type tk) TOKEN_Y_REGISTER) bad in
  '(res, tk, instr) <- lex_text 0 (C "A\n") tk instr ;;
  let bad := chk 610 (res =? (1)) bad in
  let bad := chk 611 (text_eqb (tk_str tk) (C "A")) bad in
  let bad := chk 612 (ty_eqb (tk_type tk) TOKEN_ACCUMULATOR) bad in
  '(res, tk, instr) <- lex_text 0 (C "XNOTREGISTER\t;comment\n") tk instr ;;
  let bad := chk 615 (res =? (12)) bad in
  let bad := chk 616 (ty_eqb (tk_type tk) TOKEN_LABEL) bad in
  let bad := chk 617 (text_eqb (tk_str tk) (C "XNOTREGISTER")) bad in
  '(res, tk, instr) <- lex_text 0 (C "YNOTREGISTER    ; comment again\n") tk instr ;;
  let bad := chk 620 (res =? (12)) bad in
  let bad := chk 621 (ty_eqb (tk_type tk) TOKEN_LABEL) bad in
  let bad := chk 622 (text_eqb (tk_str tk) (C "YNOTREGISTER")) bad in
  '(res, tk, instr) <- lex_text 0 (C "EOF\xff") tk instr ;;
  let bad := chk 629 (res =? (3)) bad in
  let bad := chk 630 (ty_eqb (tk_type tk) TOKEN_LABEL) bad in
  let bad := chk 631 (text_eqb (tk_str tk) (C "EOF")) bad in
  '(res, tk, instr) <- lex_text 0 (C "LDA#$01\n") tk instr ;;
  let bad := chk 637 (res =? ERROR_ILLEGAL_CHAR) bad in
  let bad := chk 638 (opt_n_eqb (tk_error_char tk) (Some 3%nat)) bad in
  let instr := reset_instruction instr in
  '(res, tk, instr) <- lex_text 0 (C "LABEL\tJSR MORE_LabeL\n") tk instr ;;
  let bad := chk 645 (res =? (5)) bad in
  let bad := chk 646 (ty_eqb (tk_type tk) TOKEN_LABEL) bad in
  let bad := chk 647 (text_eqb (tk_str tk) (C "LABEL")) bad in
  let bad := chk 648 (mn_eqb (i_mnemonic instr) NULL_MNEMONIC) bad in
  let bad := chk 649 ((i_bitfield instr) =? (0)) bad in
  '(res, tk, instr) <- lex_text 6 (skipn 6 (C "LABEL\tJSR MORE_LabeL\n")) tk instr ;;
  let bad := chk 654 (res =? (3)) bad in
  let bad := chk 655 (ty_eqb (tk_type tk) TOKEN_INSTRUCTION) bad in
  let bad := chk 656 (text_eqb (tk_str tk) (C "JSR")) bad in
  let bad := chk 657 (mn_eqb (i_mnemonic instr) JSR) bad in
  let bad := chk 658 ((i_bitfield instr) =? JSR_BITFIELD) bad in
  '(res, tk, instr) <- lex_text 10 (skipn 10 (C "LABEL\tJSR MORE_LabeL\n")) tk instr ;;
  let bad := chk 662 (res =? (10)) bad in
  let bad := chk 663 (ty_eqb (tk_type tk) TOKEN_LABEL) bad in
  let bad := chk 664 (text_eqb (tk_str tk) (C "MORE_LABEL")) bad in
  let bad := chk 666 (mn_eqb (i_mnemonic instr) JSR) bad in
  let bad := chk 667 ((i_bitfield instr) =? JSR_BITFIELD) bad in
  let instr := reset_instruction instr in
  '(res, tk, instr) <- lex_text 0 (C "bad&&#label      LDA #$01") tk instr ;;
  let bad := chk 674 (res =? ERROR_ILLEGAL_CHAR) bad in
  '(res, tk, instr) <- lex_text 17 (skipn 17 (C "bad&&#label      LDA #$01")) tk instr ;;
  let bad := chk 676 (res =? (3)) bad in
  let bad := chk 677 (ty_eqb (tk_type tk) TOKEN_INSTRUCTION) bad in
  let bad := chk 678 (text_eqb (tk_str tk) (C "LDA")) bad in
  let bad := chk 679 (mn_eqb (i_mnemonic instr) LDA) bad in
  let bad := chk 680 ((i_bitfield instr) =? LDA_BITFIELD) bad in
  '(res, tk, instr) <- lex_text 0 (C "abcdefgh2bcdefgh3bcdefgh4bcdefgh5bcdefgh6bcdefgh7bcdefgh8bcdefgh BEQ wtf") tk instr ;;
  let bad := chk 685 (res =? ERROR_TOO_LONG_LABEL) bad in
  let bad := chk 686 (text_eqb (tk_str tk) (C "LDA")) bad in
  let bad := chk 687 (opt_n_eqb (tk_error_char tk) (Some 0%nat)) bad in
  '(res, tk, instr) <- lex_text 0 (C "abcdefgh2bcdefgh3bcdefgh4bcdefgh5bcdefgh6bcdefgh7bcdefgh8bcdefg BEQ wtf") tk instr ;;
  let bad := chk 691 (res =? (63)) bad in
  let bad := chk 692 (ty_eqb (tk_type tk) TOKEN_LABEL) bad in
  let bad := chk 693 (text_eqb (tk_str tk) (C "ABCDEFGH2BCDEFGH3BCDEFGH4BCDEFGH5BCDEFGH6BCDEFGH7BCDEFGH8BCDEFG")) bad in
  '(res, tk, instr) <- lex_text 0 (C "abcdefgh2bcdefgh3bcdefgh4bcdefgh5bcdefgh6bcdefgh7bcdefgh8bcdefg: BEQ wtf") tk instr ;;
  let bad := chk 697 (res =? (63)) bad in
  let bad := chk 698 (ty_eqb (tk_type tk) TOKEN_LABEL) bad in
  let bad := chk 699 (text_eqb (tk_str tk) (C "ABCDEFGH2BCDEFGH3BCDEFGH4BCDEFGH5BCDEFGH6BCDEFGH7BCDEFGH8BCDEFG")) bad in
  Ret (rev bad).
Example test_lex_text_passes : test_lex_text = Ret [].
Proof. vm_compute. reflexivity. Qed.

(** test_lex: 64 assertions *)
Definition test_lex : M (list Z) :=
  let bad := @nil Z in
  let tk := init_token in
  let instr := init_instruction in
  '(res, tk, instr) <- lex 0 (C "#%10011001\n") tk instr ;;
  let bad := chk 716 (res =? (1)) bad in
  let bad := chk 717 (ty_eqb (tk_type tk) TOKEN_IMMEDIATE) bad in
  let bad := chk 718 (text_eqb (tk_str tk) (C "#")) bad in
  '(res, tk, instr) <- lex 1 (skipn 1 (C "#%10011001\n")) tk instr ;;
  let bad := chk 721 (res =? (9)) bad in
  let bad := chk 722 (ty_eqb (tk_type tk) TOKEN_LITERAL) bad in
  let bad := chk 723 ((tk_value tk) =? 153) bad in
  '(res, tk, instr) <- lex 0 (C "array\t\t=\t$30\n") tk instr ;;
  let bad := chk 728 (res =? (5)) bad in
  let bad := chk 729 (ty_eqb (tk_type tk) TOKEN_LABEL) bad in
  '(res, tk, instr) <- lex 7 (skipn 7 (C "array\t\t=\t$30\n")) tk instr ;;
  let bad := chk 733 (res =? (1)) bad in
  let bad := chk 734 (ty_eqb (tk_type tk) TOKEN_EQUAL_SIGN) bad in
  let bad := chk 735 (text_eqb (tk_str tk) (C "=")) bad in
  '(res, tk, instr) <- lex 9 (skipn 9 (C "array\t\t=\t$30\n")) tk instr ;;
  let bad := chk 739 (res =? (3)) bad in
  let bad := chk 740 (ty_eqb (tk_type tk) TOKEN_LITERAL) bad in
  let bad := chk 741 ((tk_value tk) =? 48) bad in
  '(res, tk, instr) <- lex 0 (C "SORT8\t\tlda (array),Y\t\t; FETCH ELEMENT COUNT\n") tk instr ;;
  let bad := chk 746 (res =? (5)) bad in
  let bad := chk 747 (ty_eqb (tk_type tk) TOKEN_LABEL) bad in
  let bad := chk 748 (mn_eqb (i_mnemonic instr) NULL_MNEMONIC) bad in
  '(res, tk, instr) <- lex 7 (skipn 7 (C "SORT8\t\tlda (array),Y\t\t; FETCH ELEMENT COUNT\n")) tk instr ;;
  let bad := chk 752 (res =? (3)) bad in
  let bad := chk 753 (ty_eqb (tk_type tk) TOKEN_INSTRUCTION) bad in
  let bad := chk 754 (mn_eqb (i_mnemonic instr) LDA) bad in
  let bad := chk 755 ((i_bitfield instr) =? LDA_BITFIELD) bad in
  '(res, tk, instr) <- lex 11 (skipn 11 (C "SORT8\t\tlda (array),Y\t\t; FETCH ELEMENT COUNT\n")) tk instr ;;
  let bad := chk 759 (res =? (1)) bad in
  let bad := chk 760 (ty_eqb (tk_type tk) TOKEN_OPEN_PARENTHESIS) bad in
  let bad := chk 761 (text_eqb (tk_str tk) (C "(")) bad in
  let bad := chk 763 (mn_eqb (i_mnemonic instr) LDA) bad in
  let bad := chk 764 ((i_bitfield instr) =? LDA_BITFIELD) bad in
  '(res, tk, instr) <- lex 12 (skipn 12 (C "SORT8\t\tlda (array),Y\t\t; FETCH ELEMENT COUNT\n")) tk instr ;;
  let bad := chk 767 (res =? (5)) bad in
  let bad := chk 768 (ty_eqb (tk_type tk) TOKEN_LABEL) bad in
  let bad := chk 769 (text_eqb (tk_str tk) (C "ARRAY")) bad in
  '(res, tk, instr) <- lex 17 (skipn 17 (C "SORT8\t\tlda (array),Y\t\t; FETCH ELEMENT COUNT\n")) tk instr ;;
  let bad := chk 772 (res =? (1)) bad in
  let bad := chk 773 (ty_eqb (tk_type tk) TOKEN_CLOSE_PARENTHESIS) bad in
  let bad := chk 774 (text_eqb (tk_str tk) (C ")")) bad in
  '(res, tk, instr) <- lex 18 (skipn 18 (C "SORT8\t\tlda (array),Y\t\t; FETCH ELEMENT COUNT\n")) tk instr ;;
  let bad := chk 777 (res =? (1)) bad in
  let bad := chk 778 (ty_eqb (tk_type tk) TOKEN_COMMA) bad in
  let bad := chk 779 (text_eqb (tk_str tk) (C ",")) bad in
  '(res, tk, instr) <- lex 19 (skipn 19 (C "SORT8\t\tlda (array),Y\t\t; FETCH ELEMENT COUNT\n")) tk instr ;;
  let bad := chk 782 (res =? (1)) bad in
  let bad := chk 783 (ty_eqb (tk_type tk) TOKEN_Y_REGISTER) bad in
  let bad := chk 784 (text_eqb (tk_str tk) (C "Y")) bad in
  '(res, tk, instr) <- lex 8 (skipn 8 (C "LDA 256,X\n")) tk instr ;;
  let bad := chk 790 (res =? (1)) bad in
  let bad := chk 791 (ty_eqb (tk_type tk) TOKEN_X_REGISTER) bad in
  let bad := chk 792 (text_eqb (tk_str tk) (C "X")) bad in
  '(res, tk, instr) <- lex 2 (skipn 2 (C "\t\t*=$1000\n")) tk instr ;;
  let bad := chk 797 (res =? (1)) bad in
  let bad := chk 798 (ty_eqb (tk_type tk) TOKEN_BASE) bad in
  let bad := chk 799 (text_eqb (tk_str tk) (C "*")) bad in
  '(res, tk, instr) <- lex 3 (skipn 3 (C "\t\t*=$1000\n")) tk instr ;;
  let bad := chk 802 (res =? (1)) bad in
  let bad := chk 803 (ty_eqb (tk_type tk) TOKEN_EQUAL_SIGN) bad in
  let bad := chk 804 (text_eqb (tk_str tk) (C "=")) bad in
  '(res, tk, instr) <- lex 4 (skipn 4 (C "\t\t*=$1000\n")) tk instr ;;
  let bad := chk 807 (res =? (5)) bad in
  let bad := chk 808 (ty_eqb (tk_type tk) TOKEN_LITERAL) bad in
  let bad := chk 809 ((tk_value tk) =? 4096) bad in
  '(res, tk, instr) <- lex 0 (C ".org $800\n") tk instr ;;
  let bad := chk 814 (res =? (4)) bad in
  let bad := chk 815 (ty_eqb (tk_type tk) TOKEN_ORG_DIRECTIVE) bad in
  let bad := chk 816 (text_eqb (tk_str tk) (C ".ORG")) bad in
  '(res, tk, instr) <- lex 5 (skipn 5 (C ".org $800\n")) tk instr ;;
  let bad := chk 819 (res =? (4)) bad in
  let bad := chk 820 (ty_eqb (tk_type tk) TOKEN_LITERAL) bad in
  let bad := chk 821 ((tk_value tk) =? 2048) bad in
  '(res, tk, instr) <- lex 0 (C "ARRAY .EQU $10\n") tk instr ;;
  let bad := chk 826 (res =? (5)) bad in
  let bad := chk 827 (ty_eqb (tk_type tk) TOKEN_LABEL) bad in
  '(res, tk, instr) <- lex 6 (skipn 6 (C "ARRAY .EQU $10\n")) tk instr ;;
  let bad := chk 830 (res =? (4)) bad in
  let bad := chk 831 (ty_eqb (tk_type tk) TOKEN_EQU_DIRECTIVE) bad in
  let bad := chk 832 (text_eqb (tk_str tk) (C ".EQU")) bad in
  '(res, tk, instr) <- lex 6 (skipn 6 (C "\t\tLSR A\t\t; comment\n")) tk instr ;;
  let bad := chk 837 (res =? (1)) bad in
  let bad := chk 838 (ty_eqb (tk_type tk) TOKEN_ACCUMULATOR) bad in
  let bad := chk 839 (text_eqb (tk_str tk) (C "A")) bad in
  Ret (rev bad).
Example test_lex_passes : test_lex = Ret [].
Proof. vm_compute. reflexivity. Qed.

(** test_lex_line: 272 assertions *)
Definition test_lex_line : M (list Z) :=
  let bad := @nil Z in
  let lexer := init_lexer (C "test_lex_line.asm") in
  let tk := init_token in
  let instr := init_instruction in
  let line_num := (1) in
  '(res, lexer, tk, instr, _) <- lex_line (C "SEARCH\t\tLDA\tBOARD,X\n") lexer tk instr line_num ;;
  let bad := chk 863 (res =? LEXER_SUCCESS) bad in
  let line_num := line_num + 1 in
  let bad := chk 866 ((lx_curr lexer) =? (5)) bad in
  let bad := chk 867 (opt_text_eqb (lx_line lexer) (Some (C "SEARCH\t\tLDA\tBOARD,X\n"))) bad in
  let bad := chk 869 (mn_eqb (i_mnemonic instr) LDA) bad in
  let bad := chk 870 ((i_bitfield instr) =? LDA_BITFIELD) bad in
  t <- get (lx_seq lexer) (0) ;;
  let bad := chk 872 (ty_eqb (tk_type t) TOKEN_LABEL) bad in
  t <- get (lx_seq lexer) (0) ;;
  let bad := chk 873 (opt_n_eqb (tk_loc t) (Some 0%nat)) bad in
  t <- get (lx_seq lexer) (1) ;;
  let bad := chk 874 (ty_eqb (tk_type t) TOKEN_INSTRUCTION) bad in
  t <- get (lx_seq lexer) (1) ;;
  let bad := chk 875 (opt_n_eqb (tk_loc t) (Some 8%nat)) bad in
  t <- get (lx_seq lexer) (2) ;;
  let bad := chk 876 (ty_eqb (tk_type t) TOKEN_LABEL) bad in
  t <- get (lx_seq lexer) (2) ;;
  let bad := chk 877 (opt_n_eqb (tk_loc t) (Some 12%nat)) bad in
  t <- get (lx_seq lexer) (3) ;;
  let bad := chk 878 (ty_eqb (tk_type t) TOKEN_COMMA) bad in
  t <- get (lx_seq lexer) (3) ;;
  let bad := chk 879 (opt_n_eqb (tk_loc t) (Some 17%nat)) bad in
  t <- get (lx_seq lexer) (4) ;;
  let bad := chk 880 (ty_eqb (tk_type t) TOKEN_X_REGISTER) bad in
  t <- get (lx_seq lexer) (4) ;;
  let bad := chk 881 (opt_n_eqb (tk_loc t) (Some 18%nat)) bad in
  t <- get (lx_seq lexer) (5) ;;
  let bad := chk 882 (ty_eqb (tk_type t) TOKEN_NULL) bad in
  t <- get (lx_seq lexer) (5) ;;
  let bad := chk 883 (opt_n_eqb (tk_loc t) None) bad in
  t <- get (lx_seq lexer) (6) ;;
  let bad := chk 884 (ty_eqb (tk_type t) TOKEN_NULL) bad in
  t <- get (lx_seq lexer) (6) ;;
  let bad := chk 885 (opt_n_eqb (tk_loc t) None) bad in
  t <- get (lx_seq lexer) (7) ;;
  let bad := chk 886 (ty_eqb (tk_type t) TOKEN_NULL) bad in
  t <- get (lx_seq lexer) (7) ;;
  let bad := chk 887 (opt_n_eqb (tk_loc t) None) bad in
  t <- get (lx_seq lexer) (0) ;;
  let bad := chk 889 (text_eqb (tk_str t) (C "SEARCH")) bad in
  t <- get (lx_seq lexer) (2) ;;
  let bad := chk 890 (text_eqb (tk_str t) (C "BOARD")) bad in
  '(res, lexer, tk, instr, _) <- lex_line (C "\t\tADC\tBCC\t; lol\n") lexer tk instr line_num ;;
  let bad := chk 895 (res =? LEXER_SUCCESS) bad in
  let line_num := line_num + 1 in
  let bad := chk 897 ((lx_curr lexer) =? (2)) bad in
  let bad := chk 898 (opt_text_eqb (lx_line lexer) (Some (C "\t\tADC\tBCC\t; lol\n"))) bad in
  let bad := chk 901 (mn_eqb (i_mnemonic instr) BCC) bad in
  let bad := chk 902 ((i_bitfield instr) =? BCC_BITFIELD) bad in
  t <- get (lx_seq lexer) (0) ;;
  let bad := chk 904 (ty_eqb (tk_type t) TOKEN_INSTRUCTION) bad in
  t <- get (lx_seq lexer) (0) ;;
  let bad := chk 905 (opt_n_eqb (tk_loc t) (Some 2%nat)) bad in
  t <- get (lx_seq lexer) (1) ;;
  let bad := chk 906 (ty_eqb (tk_type t) TOKEN_INSTRUCTION) bad in
  t <- get (lx_seq lexer) (1) ;;
  let bad := chk 907 (opt_n_eqb (tk_loc t) (Some 6%nat)) bad in
  t <- get (lx_seq lexer) (2) ;;
  let bad := chk 908 (ty_eqb (tk_type t) TOKEN_NULL) bad in
  t <- get (lx_seq lexer) (3) ;;
  let bad := chk 909 (ty_eqb (tk_type t) TOKEN_NULL) bad in
  t <- get (lx_seq lexer) (4) ;;
  let bad := chk 910 (ty_eqb (tk_type t) TOKEN_NULL) bad in
  t <- get (lx_seq lexer) (5) ;;
  let bad := chk 911 (ty_eqb (tk_type t) TOKEN_NULL) bad in
  t <- get (lx_seq lexer) (6) ;;
  let bad := chk 912 (ty_eqb (tk_type t) TOKEN_NULL) bad in
  t <- get (lx_seq lexer) (7) ;;
  let bad := chk 913 (ty_eqb (tk_type t) TOKEN_NULL) bad in
  '(res, lexer, tk, instr, _) <- lex_line (C "LABEL LABEL2 JMP ADC (LMAO,X)\n") lexer tk instr line_num ;;
  let bad := chk 917 (res =? ERROR_TOO_MANY_TOKENS) bad in
  let line_num := line_num + 1 in
  let bad := chk 919 ((lx_curr lexer) =? (8)) bad in
  let bad := chk 921 (opt_text_eqb (lx_line lexer) (Some (C "LABEL LABEL2 JMP ADC (LMAO,X)\n"))) bad in
  t <- get (lx_seq lexer) (7) ;;
  let bad := chk 923 (ty_eqb (tk_type t) TOKEN_X_REGISTER) bad in
  '(res, lexer, tk, instr, _) <- lex_line (C "ELOOP\t\tCMP\tBK,Y\n") lexer tk instr line_num ;;
  let bad := chk 928 (res =? LEXER_SUCCESS) bad in
  let line_num := line_num + 1 in
  let bad := chk 930 ((lx_curr lexer) =? (5)) bad in
  let bad := chk 931 (opt_text_eqb (lx_line lexer) (Some (C "ELOOP\t\tCMP\tBK,Y\n"))) bad in
  let bad := chk 933 (mn_eqb (i_mnemonic instr) CMP) bad in
  let bad := chk 934 ((i_bitfield instr) =? CMP_BITFIELD) bad in
  t <- get (lx_seq lexer) (0) ;;
  let bad := chk 936 (ty_eqb (tk_type t) TOKEN_LABEL) bad in
  t <- get (lx_seq lexer) (0) ;;
  let bad := chk 937 (opt_n_eqb (tk_loc t) (Some 0%nat)) bad in
  t <- get (lx_seq lexer) (1) ;;
  let bad := chk 938 (ty_eqb (tk_type t) TOKEN_INSTRUCTION) bad in
  t <- get (lx_seq lexer) (1) ;;
  let bad := chk 939 (opt_n_eqb (tk_loc t) (Some 7%nat)) bad in
  t <- get (lx_seq lexer) (2) ;;
  let bad := chk 940 (ty_eqb (tk_type t) TOKEN_LABEL) bad in
  t <- get (lx_seq lexer) (2) ;;
  let bad := chk 941 (opt_n_eqb (tk_loc t) (Some 11%nat)) bad in
  t <- get (lx_seq lexer) (3) ;;
  let bad := chk 942 (ty_eqb (tk_type t) TOKEN_COMMA) bad in
  t <- get (lx_seq lexer) (3) ;;
  let bad := chk 943 (opt_n_eqb (tk_loc t) (Some 13%nat)) bad in
  t <- get (lx_seq lexer) (4) ;;
  let bad := chk 944 (ty_eqb (tk_type t) TOKEN_Y_REGISTER) bad in
  t <- get (lx_seq lexer) (4) ;;
  let bad := chk 945 (opt_n_eqb (tk_loc t) (Some 14%nat)) bad in
  t <- get (lx_seq lexer) (5) ;;
  let bad := chk 946 (ty_eqb (tk_type t) TOKEN_NULL) bad in
  t <- get (lx_seq lexer) (6) ;;
  let bad := chk 947 (ty_eqb (tk_type t) TOKEN_NULL) bad in
  t <- get (lx_seq lexer) (7) ;;
  let bad := chk 948 (ty_eqb (tk_type t) TOKEN_NULL) bad in
  '(res, lexer, tk, instr, _) <- lex_line (C "address\t=\t$1234\n") lexer tk instr line_num ;;
  let bad := chk 953 (res =? LEXER_SUCCESS) bad in
  let line_num := line_num + 1 in
  let bad := chk 955 ((lx_curr lexer) =? (3)) bad in
  let bad := chk 956 (opt_text_eqb (lx_line lexer) (Some (C "address\t=\t$1234\n"))) bad in
  let bad := chk 958 (mn_eqb (i_mnemonic instr) NULL_MNEMONIC) bad in
  t <- get (lx_seq lexer) (0) ;;
  let bad := chk 960 (ty_eqb (tk_type t) TOKEN_LABEL) bad in
  t <- get (lx_seq lexer) (0) ;;
  let bad := chk 961 (opt_n_eqb (tk_loc t) (Some 0%nat)) bad in
  t <- get (lx_seq lexer) (1) ;;
  let bad := chk 962 (ty_eqb (tk_type t) TOKEN_EQUAL_SIGN) bad in
  t <- get (lx_seq lexer) (1) ;;
  let bad := chk 963 (opt_n_eqb (tk_loc t) (Some 8%nat)) bad in
  t <- get (lx_seq lexer) (2) ;;
  let bad := chk 964 (ty_eqb (tk_type t) TOKEN_LITERAL) bad in
  t <- get (lx_seq lexer) (2) ;;
  let bad := chk 965 (opt_n_eqb (tk_loc t) (Some 10%nat)) bad in
  t <- get (lx_seq lexer) (3) ;;
  let bad := chk 966 (ty_eqb (tk_type t) TOKEN_NULL) bad in
  t <- get (lx_seq lexer) (4) ;;
  let bad := chk 967 (ty_eqb (tk_type t) TOKEN_NULL) bad in
  t <- get (lx_seq lexer) (5) ;;
  let bad := chk 968 (ty_eqb (tk_type t) TOKEN_NULL) bad in
  t <- get (lx_seq lexer) (6) ;;
  let bad := chk 969 (ty_eqb (tk_type t) TOKEN_NULL) bad in
  t <- get (lx_seq lexer) (7) ;;
  let bad := chk 970 (ty_eqb (tk_type t) TOKEN_NULL) bad in
  t <- get (lx_seq lexer) (0) ;;
  let bad := chk 972 (text_eqb (tk_str t) (C "ADDRESS")) bad in
  t <- get (lx_seq lexer) (2) ;;
  let bad := chk 973 ((tk_value t) =? 4660) bad in
  '(res, lexer, tk, instr, _) <- lex_line (C "L20\t\tSTA\t($FF),Y") lexer tk instr line_num ;;
  let bad := chk 979 (res =? LEXER_SUCCESS) bad in
  let line_num := line_num + 1 in
  let bad := chk 981 ((lx_curr lexer) =? (7)) bad in
  let bad := chk 982 (opt_text_eqb (lx_line lexer) (Some (C "L20\t\tSTA\t($FF),Y"))) bad in
  let bad := chk 984 (mn_eqb (i_mnemonic instr) STA) bad in
  let bad := chk 985 ((i_bitfield instr) =? STA_BITFIELD) bad in
  t <- get (lx_seq lexer) (0) ;;
  let bad := chk 987 (ty_eqb (tk_type t) TOKEN_LABEL) bad in
  t <- get (lx_seq lexer) (0) ;;
  let bad := chk 988 (opt_n_eqb (tk_loc t) (Some 0%nat)) bad in
  t <- get (lx_seq lexer) (1) ;;
  let bad := chk 989 (ty_eqb (tk_type t) TOKEN_INSTRUCTION) bad in
  t <- get (lx_seq lexer) (1) ;;
  let bad := chk 990 (opt_n_eqb (tk_loc t) (Some 5%nat)) bad in
  t <- get (lx_seq lexer) (2) ;;
  let bad := chk 991 (ty_eqb (tk_type t) TOKEN_OPEN_PARENTHESIS) bad in
  t <- get (lx_seq lexer) (2) ;;
  let bad := chk 992 (opt_n_eqb (tk_loc t) (Some 9%nat)) bad in
  t <- get (lx_seq lexer) (3) ;;
  let bad := chk 993 (ty_eqb (tk_type t) TOKEN_LITERAL) bad in
  t <- get (lx_seq lexer) (3) ;;
  let bad := chk 994 (opt_n_eqb (tk_loc t) (Some 10%nat)) bad in
  t <- get (lx_seq lexer) (4) ;;
  let bad := chk 995 (ty_eqb (tk_type t) TOKEN_CLOSE_PARENTHESIS) bad in
  t <- get (lx_seq lexer) (4) ;;
  let bad := chk 996 (opt_n_eqb (tk_loc t) (Some 13%nat)) bad in
  t <- get (lx_seq lexer) (5) ;;
  let bad := chk 997 (ty_eqb (tk_type t) TOKEN_COMMA) bad in
  t <- get (lx_seq lexer) (5) ;;
  let bad := chk 998 (opt_n_eqb (tk_loc t) (Some 14%nat)) bad in
  t <- get (lx_seq lexer) (6) ;;
  let bad := chk 999 (ty_eqb (tk_type t) TOKEN_Y_REGISTER) bad in
  t <- get (lx_seq lexer) (6) ;;
  let bad := chk 1000 (opt_n_eqb (tk_loc t) (Some 15%nat)) bad in
  t <- get (lx_seq lexer) (7) ;;
  let bad := chk 1001 (ty_eqb (tk_type t) TOKEN_NULL) bad in
  t <- get (lx_seq lexer) (0) ;;
  let bad := chk 1003 (text_eqb (tk_str t) (C "L20")) bad in
  t <- get (lx_seq lexer) (3) ;;
  let bad := chk 1004 ((tk_value t) =? 255) bad in
  '(res, lexer, tk, instr, _) <- lex_line (C "EOFTEST LSR $0A\xff") lexer tk instr line_num ;;
  let bad := chk 1013 (res =? LEXER_SUCCESS) bad in
  let line_num := line_num + 1 in
  let bad := chk 1015 ((lx_curr lexer) =? (3)) bad in
  let bad := chk 1016 (opt_text_eqb (lx_line lexer) (Some (C "EOFTEST LSR $0A\xff"))) bad in
  let bad := chk 1018 (mn_eqb (i_mnemonic instr) LSR) bad in
  let bad := chk 1019 ((i_bitfield instr) =? LSR_BITFIELD) bad in
  t <- get (lx_seq lexer) (0) ;;
  let bad := chk 1021 (ty_eqb (tk_type t) TOKEN_LABEL) bad in
  t <- get (lx_seq lexer) (0) ;;
  let bad := chk 1022 (opt_n_eqb (tk_loc t) (Some 0%nat)) bad in
  t <- get (lx_seq lexer) (1) ;;
  let bad := chk 1023 (ty_eqb (tk_type t) TOKEN_INSTRUCTION) bad in
  t <- get (lx_seq lexer) (1) ;;
  let bad := chk 1024 (opt_n_eqb (tk_loc t) (Some 8%nat)) bad in
  t <- get (lx_seq lexer) (2) ;;
  let bad := chk 1025 (ty_eqb (tk_type t) TOKEN_LITERAL) bad in
  t <- get (lx_seq lexer) (2) ;;
  let bad := chk 1026 (opt_n_eqb (tk_loc t) (Some 12%nat)) bad in
  t <- get (lx_seq lexer) (3) ;;
  let bad := chk 1027 (ty_eqb (tk_type t) TOKEN_NULL) bad in
  t <- get (lx_seq lexer) (4) ;;
  let bad := chk 1028 (ty_eqb (tk_type t) TOKEN_NULL) bad in
  t <- get (lx_seq lexer) (5) ;;
  let bad := chk 1029 (ty_eqb (tk_type t) TOKEN_NULL) bad in
  t <- get (lx_seq lexer) (6) ;;
  let bad := chk 1030 (ty_eqb (tk_type t) TOKEN_NULL) bad in
  t <- get (lx_seq lexer) (7) ;;
  let bad := chk 1031 (ty_eqb (tk_type t) TOKEN_NULL) bad in
  t <- get (lx_seq lexer) (0) ;;
  let bad := chk 1033 (text_eqb (tk_str t) (C "EOFTEST")) bad in
  t <- get (lx_seq lexer) (2) ;;
  let bad := chk 1034 ((tk_value t) =? 10) bad in
  '(res, lexer, tk, instr, _) <- lex_line (C "PATTERN\t.EQU\t$2000\n") lexer tk instr line_num ;;
  let bad := chk 1041 (res =? LEXER_SUCCESS) bad in
  let line_num := line_num + 1 in
  let bad := chk 1043 ((lx_curr lexer) =? (3)) bad in
  let bad := chk 1044 (opt_text_eqb (lx_line lexer) (Some (C "PATTERN\t.EQU\t$2000\n"))) bad in
  let bad := chk 1046 (mn_eqb (i_mnemonic instr) NULL_MNEMONIC) bad in
  t <- get (lx_seq lexer) (0) ;;
  let bad := chk 1048 (ty_eqb (tk_type t) TOKEN_LABEL) bad in
  t <- get (lx_seq lexer) (0) ;;
  let bad := chk 1049 (opt_n_eqb (tk_loc t) (Some 0%nat)) bad in
  t <- get (lx_seq lexer) (1) ;;
  let bad := chk 1050 (ty_eqb (tk_type t) TOKEN_EQU_DIRECTIVE) bad in
  t <- get (lx_seq lexer) (1) ;;
  let bad := chk 1051 (opt_n_eqb (tk_loc t) (Some 8%nat)) bad in
  t <- get (lx_seq lexer) (2) ;;
  let bad := chk 1052 (ty_eqb (tk_type t) TOKEN_LITERAL) bad in
  t <- get (lx_seq lexer) (2) ;;
  let bad := chk 1053 (opt_n_eqb (tk_loc t) (Some 13%nat)) bad in
  t <- get (lx_seq lexer) (3) ;;
  let bad := chk 1054 (ty_eqb (tk_type t) TOKEN_NULL) bad in
  t <- get (lx_seq lexer) (4) ;;
  let bad := chk 1055 (ty_eqb (tk_type t) TOKEN_NULL) bad in
  t <- get (lx_seq lexer) (5) ;;
  let bad := chk 1056 (ty_eqb (tk_type t) TOKEN_NULL) bad in
  t <- get (lx_seq lexer) (6) ;;
  let bad := chk 1057 (ty_eqb (tk_type t) TOKEN_NULL) bad in
  t <- get (lx_seq lexer) (7) ;;
  let bad := chk 1058 (ty_eqb (tk_type t) TOKEN_NULL) bad in
  t <- get (lx_seq lexer) (0) ;;
  let bad := chk 1060 (text_eqb (tk_str t) (C "PATTERN")) bad in
  t <- get (lx_seq lexer) (2) ;;
  let bad := chk 1061 ((tk_value t) =? 8192) bad in
  '(res, lexer, tk, instr, _) <- lex_line (C "\t\t* = $1000\t; comment\n") lexer tk instr line_num ;;
  let bad := chk 1066 (res =? LEXER_SUCCESS) bad in
  let line_num := line_num + 1 in
  let bad := chk 1068 ((lx_curr lexer) =? (3)) bad in
  let bad := chk 1069 (opt_text_eqb (lx_line lexer) (Some (C "\t\t* = $1000\t; comment\n"))) bad in
  let bad := chk 1071 (mn_eqb (i_mnemonic instr) NULL_MNEMONIC) bad in
  t <- get (lx_seq lexer) (0) ;;
  let bad := chk 1073 (ty_eqb (tk_type t) TOKEN_BASE) bad in
  t <- get (lx_seq lexer) (0) ;;
  let bad := chk 1074 (opt_n_eqb (tk_loc t) (Some 2%nat)) bad in
  t <- get (lx_seq lexer) (1) ;;
  let bad := chk 1075 (ty_eqb (tk_type t) TOKEN_EQUAL_SIGN) bad in
  t <- get (lx_seq lexer) (1) ;;
  let bad := chk 1076 (opt_n_eqb (tk_loc t) (Some 4%nat)) bad in
  t <- get (lx_seq lexer) (2) ;;
  let bad := chk 1077 (ty_eqb (tk_type t) TOKEN_LITERAL) bad in
  t <- get (lx_seq lexer) (2) ;;
  let bad := chk 1078 (opt_n_eqb (tk_loc t) (Some 6%nat)) bad in
  t <- get (lx_seq lexer) (3) ;;
  let bad := chk 1079 (ty_eqb (tk_type t) TOKEN_NULL) bad in
  t <- get (lx_seq lexer) (4) ;;
  let bad := chk 1080 (ty_eqb (tk_type t) TOKEN_NULL) bad in
  t <- get (lx_seq lexer) (5) ;;
  let bad := chk 1081 (ty_eqb (tk_type t) TOKEN_NULL) bad in
  t <- get (lx_seq lexer) (6) ;;
  let bad := chk 1082 (ty_eqb (tk_type t) TOKEN_NULL) bad in
  t <- get (lx_seq lexer) (7) ;;
  let bad := chk 1083 (ty_eqb (tk_type t) TOKEN_NULL) bad in
  t <- get (lx_seq lexer) (2) ;;
  let bad := chk 1085 ((tk_value t) =? 4096) bad in
  '(res, lexer, tk, instr, _) <- lex_line (C "\t\tlsr a\t\t\t; this routine calculates it as:\n") lexer tk instr line_num ;;
  let bad := chk 1090 (res =? LEXER_SUCCESS) bad in
  let line_num := line_num + 1 in
  let bad := chk 1092 ((lx_curr lexer) =? (2)) bad in
  let bad := chk 1093 (opt_text_eqb (lx_line lexer) (Some (C "\t\tlsr a\t\t\t; this routine calculates it as:\n"))) bad in
  let bad := chk 1095 (mn_eqb (i_mnemonic instr) LSR) bad in
  t <- get (lx_seq lexer) (0) ;;
  let bad := chk 1097 (ty_eqb (tk_type t) TOKEN_INSTRUCTION) bad in
  t <- get (lx_seq lexer) (0) ;;
  let bad := chk 1098 (opt_n_eqb (tk_loc t) (Some 2%nat)) bad in
  t <- get (lx_seq lexer) (1) ;;
  let bad := chk 1099 (ty_eqb (tk_type t) TOKEN_ACCUMULATOR) bad in
  t <- get (lx_seq lexer) (1) ;;
  let bad := chk 1100 (opt_n_eqb (tk_loc t) (Some 6%nat)) bad in
  t <- get (lx_seq lexer) (2) ;;
  let bad := chk 1101 (ty_eqb (tk_type t) TOKEN_NULL) bad in
  t <- get (lx_seq lexer) (3) ;;
  let bad := chk 1102 (ty_eqb (tk_type t) TOKEN_NULL) bad in
  t <- get (lx_seq lexer) (4) ;;
  let bad := chk 1103 (ty_eqb (tk_type t) TOKEN_NULL) bad in
  t <- get (lx_seq lexer) (5) ;;
  let bad := chk 1104 (ty_eqb (tk_type t) TOKEN_NULL) bad in
  t <- get (lx_seq lexer) (6) ;;
  let bad := chk 1105 (ty_eqb (tk_type t) TOKEN_NULL) bad in
  t <- get (lx_seq lexer) (7) ;;
  let bad := chk 1106 (ty_eqb (tk_type t) TOKEN_NULL) bad in
  '(res, lexer, tk, instr, _) <- lex_line (C "STREQULP:\tLDA ($FC),Y\n") lexer tk instr line_num ;;
  let bad := chk 1111 (res =? LEXER_SUCCESS) bad in
  let line_num := line_num + 1 in
  let bad := chk 1113 ((lx_curr lexer) =? (7)) bad in
  let bad := chk 1114 (opt_text_eqb (lx_line lexer) (Some (C "STREQULP:\tLDA ($FC),Y\n"))) bad in
  let bad := chk 1116 (mn_eqb (i_mnemonic instr) LDA) bad in
  t <- get (lx_seq lexer) (0) ;;
  let bad := chk 1118 (ty_eqb (tk_type t) TOKEN_LABEL) bad in
  t <- get (lx_seq lexer) (0) ;;
  let bad := chk 1119 (opt_n_eqb (tk_loc t) (Some 0%nat)) bad in
  t <- get (lx_seq lexer) (1) ;;
  let bad := chk 1120 (ty_eqb (tk_type t) TOKEN_INSTRUCTION) bad in
  t <- get (lx_seq lexer) (1) ;;
  let bad := chk 1121 (opt_n_eqb (tk_loc t) (Some 10%nat)) bad in
  t <- get (lx_seq lexer) (2) ;;
  let bad := chk 1122 (ty_eqb (tk_type t) TOKEN_OPEN_PARENTHESIS) bad in
  t <- get (lx_seq lexer) (2) ;;
  let bad := chk 1123 (opt_n_eqb (tk_loc t) (Some 14%nat)) bad in
  t <- get (lx_seq lexer) (3) ;;
  let bad := chk 1124 (ty_eqb (tk_type t) TOKEN_LITERAL) bad in
  t <- get (lx_seq lexer) (3) ;;
  let bad := chk 1125 (opt_n_eqb (tk_loc t) (Some 15%nat)) bad in
  t <- get (lx_seq lexer) (4) ;;
  let bad := chk 1126 (ty_eqb (tk_type t) TOKEN_CLOSE_PARENTHESIS) bad in
  t <- get (lx_seq lexer) (4) ;;
  let bad := chk 1127 (opt_n_eqb (tk_loc t) (Some 18%nat)) bad in
  t <- get (lx_seq lexer) (5) ;;
  let bad := chk 1128 (ty_eqb (tk_type t) TOKEN_COMMA) bad in
  t <- get (lx_seq lexer) (5) ;;
  let bad := chk 1129 (opt_n_eqb (tk_loc t) (Some 19%nat)) bad in
  t <- get (lx_seq lexer) (6) ;;
  let bad := chk 1130 (ty_eqb (tk_type t) TOKEN_Y_REGISTER) bad in
  t <- get (lx_seq lexer) (6) ;;
  let bad := chk 1131 (opt_n_eqb (tk_loc t) (Some 20%nat)) bad in
  t <- get (lx_seq lexer) (7) ;;
  let bad := chk 1132 (ty_eqb (tk_type t) TOKEN_NULL) bad in
  '(res, lexer, tk, instr, _) <- lex_line (C "INX $#100\n") lexer tk instr line_num ;;
  let bad := chk 1138 (res =? ERROR_ILLEGAL_CHAR) bad in
  let line_num := line_num + 1 in
  let bad := chk 1140 (opt_text_eqb (lx_line lexer) (Some (C "INX $#100\n"))) bad in
  let bad := chk 1144 (opt_n_eqb (tk_error_char tk) (Some 5%nat)) bad in
  let bad := chk 1145 (opt_n_eqb (tk_loc tk) (Some 4%nat)) bad in
  '(res, lexer, tk, instr, _) <- lex_line (C "\t\tJMP\t$LABELLOL\t") lexer tk instr line_num ;;
  let bad := chk 1150 (res =? ERROR_ILLEGAL_CHAR) bad in
  let line_num := line_num + 1 in
  let bad := chk 1152 (opt_text_eqb (lx_line lexer) (Some (C "\t\tJMP\t$LABELLOL\t"))) bad in
  let bad := chk 1153 (opt_n_eqb (tk_error_char tk) (Some 7%nat)) bad in
  let bad := chk 1154 (opt_n_eqb (tk_loc tk) (Some 6%nat)) bad in
  '(res, lexer, tk, instr, _) <- lex_line (C "\tLDY\t%100120\xff") lexer tk instr line_num ;;
  let bad := chk 1162 (res =? ERROR_ILLEGAL_CHAR) bad in
  let line_num := line_num + 1 in
  let bad := chk 1164 (opt_text_eqb (lx_line lexer) (Some (C "\tLDY\t%100120\xff"))) bad in
  let bad := chk 1165 (opt_n_eqb (tk_error_char tk) (Some 10%nat)) bad in
  let bad := chk 1166 (opt_n_eqb (tk_loc tk) (Some 5%nat)) bad in
  '(res, lexer, tk, instr, _) <- lex_line (C "        EOR     @WTF    ; comment       \n\n\n\n\n") lexer tk instr line_num ;;
  let bad := chk 1174 (res =? ERROR_ILLEGAL_CHAR) bad in
  let line_num := line_num + 1 in
  let bad := chk 1176 (opt_text_eqb (lx_line lexer) (Some (C "        EOR     @WTF    ; comment       \n\n\n\n\n"))) bad in
  let bad := chk 1177 (opt_n_eqb (tk_error_char tk) (Some 16%nat)) bad in
  let bad := chk 1178 (opt_n_eqb (tk_loc tk) (Some 16%nat)) bad in
  '(res, lexer, tk, instr, _) <- lex_line (C "\t\tSOMETHING\t.WTF\t$1234\n") lexer tk instr line_num ;;
  let bad := chk 1183 (res =? ERROR_ILLEGAL_DIRECTIVE) bad in
  let line_num := line_num + 1 in
  let bad := chk 1185 (opt_text_eqb (lx_line lexer) (Some (C "\t\tSOMETHING\t.WTF\t$1234\n"))) bad in
  let bad := chk 1186 (opt_n_eqb (tk_error_char tk) (Some 12%nat)) bad in
  let bad := chk 1187 (opt_n_eqb (tk_loc tk) (Some 12%nat)) bad in
  '(res, lexer, tk, instr, _) <- lex_line (C "VALUE .EQUBADCHAR%%% $800\n") lexer tk instr line_num ;;
  let bad := chk 1192 (res =? ERROR_ILLEGAL_CHAR) bad in
  let line_num := line_num + 1 in
  let bad := chk 1194 (opt_text_eqb (lx_line lexer) (Some (C "VALUE .EQUBADCHAR%%% $800\n"))) bad in
  let bad := chk 1195 (opt_n_eqb (tk_error_char tk) (Some 17%nat)) bad in
  let bad := chk 1196 (opt_n_eqb (tk_loc tk) (Some 6%nat)) bad in
  '(res, lexer, tk, instr, _) <- lex_line (C "\t\tLDA\tSETW:,X\n") lexer tk instr line_num ;;
  let bad := chk 1201 (res =? ERROR_ILLEGAL_CHAR) bad in
  let line_num := line_num + 1 in
  let bad := chk 1203 (opt_text_eqb (lx_line lexer) (Some (C "\t\tLDA\tSETW:,X\n"))) bad in
  let bad := chk 1204 (opt_n_eqb (tk_error_char tk) (Some 10%nat)) bad in
  let bad := chk 1205 (opt_n_eqb (tk_loc tk) (Some 6%nat)) bad in
  '(res, lexer, tk, instr, _) <- lex_line (C "\t   \t **=:=LDA\n") lexer tk instr line_num ;;
  let bad := chk 1210 (res =? ERROR_ILLEGAL_CHAR) bad in
  let line_num := line_num + 1 in
  let bad := chk 1212 (opt_text_eqb (lx_line lexer) (Some (C "\t   \t **=:=LDA\n"))) bad in
  let bad := chk 1213 (opt_n_eqb (tk_error_char tk) (Some 9%nat)) bad in
  let bad := chk 1214 (opt_n_eqb (tk_loc tk) (Some 8%nat)) bad in
  '(res, lexer, tk, instr, _) <- lex_line (C ";THIS SUBROUTINE ARRANGES THE 8-BIT ELEMENTS OF A LIST IN ASCENDING\n") lexer tk instr line_num ;;
  let bad := chk 1219 (res =? LEXER_SUCCESS) bad in
  let bad := chk 1220 (opt_text_eqb (lx_line lexer) (Some (C ";THIS SUBROUTINE ARRANGES THE 8-BIT ELEMENTS OF A LIST IN ASCENDING\n"))) bad in
  let bad := chk 1221 (opt_n_eqb (tk_error_char tk) None) bad in
  let bad := chk 1222 (opt_n_eqb (tk_loc tk) None) bad in
  t <- get (lx_seq lexer) (0) ;;
  let bad := chk 1225 (ty_eqb (tk_type t) TOKEN_NULL) bad in
  t <- get (lx_seq lexer) (1) ;;
  let bad := chk 1225 (ty_eqb (tk_type t) TOKEN_NULL) bad in
  t <- get (lx_seq lexer) (2) ;;
  let bad := chk 1225 (ty_eqb (tk_type t) TOKEN_NULL) bad in
  t <- get (lx_seq lexer) (3) ;;
  let bad := chk 1225 (ty_eqb (tk_type t) TOKEN_NULL) bad in
  t <- get (lx_seq lexer) (4) ;;
  let bad := chk 1225 (ty_eqb (tk_type t) TOKEN_NULL) bad in
  t <- get (lx_seq lexer) (5) ;;
  let bad := chk 1225 (ty_eqb (tk_type t) TOKEN_NULL) bad in
  t <- get (lx_seq lexer) (6) ;;
  let bad := chk 1225 (ty_eqb (tk_type t) TOKEN_NULL) bad in
  t <- get (lx_seq lexer) (7) ;;
  let bad := chk 1225 (ty_eqb (tk_type t) TOKEN_NULL) bad in
  let line_num := line_num + 1 in
  '(res, lexer, tk, instr, _) <- lex_line (C "     \n") lexer tk instr line_num ;;
  let bad := chk 1231 (res =? LEXER_SUCCESS) bad in
  t <- get (lx_seq lexer) (0) ;;
  let bad := chk 1233 (ty_eqb (tk_type t) TOKEN_NULL) bad in
  t <- get (lx_seq lexer) (1) ;;
  let bad := chk 1233 (ty_eqb (tk_type t) TOKEN_NULL) bad in
  t <- get (lx_seq lexer) (2) ;;
  let bad := chk 1233 (ty_eqb (tk_type t) TOKEN_NULL) bad in
  t <- get (lx_seq lexer) (3) ;;
  let bad := chk 1233 (ty_eqb (tk_type t) TOKEN_NULL) bad in
  t <- get (lx_seq lexer) (4) ;;
  let bad := chk 1233 (ty_eqb (tk_type t) TOKEN_NULL) bad in
  t <- get (lx_seq lexer) (5) ;;
  let bad := chk 1233 (ty_eqb (tk_type t) TOKEN_NULL) bad in
  t <- get (lx_seq lexer) (6) ;;
  let bad := chk 1233 (ty_eqb (tk_type t) TOKEN_NULL) bad in
  t <- get (lx_seq lexer) (7) ;;
  let bad := chk 1233 (ty_eqb (tk_type t) TOKEN_NULL) bad in
  let line_num := line_num + 1 in
  '(res, lexer, tk, instr, _) <- lex_line (C "\t\t\n") lexer tk instr line_num ;;
  let bad := chk 1238 (res =? LEXER_SUCCESS) bad in
  t <- get (lx_seq lexer) (0) ;;
  let bad := chk 1240 (ty_eqb (tk_type t) TOKEN_NULL) bad in
  t <- get (lx_seq lexer) (1) ;;
  let bad := chk 1240 (ty_eqb (tk_type t) TOKEN_NULL) bad in
  t <- get (lx_seq lexer) (2) ;;
  let bad := chk 1240 (ty_eqb (tk_type t) TOKEN_NULL) bad in
  t <- get (lx_seq lexer) (3) ;;
  let bad := chk 1240 (ty_eqb (tk_type t) TOKEN_NULL) bad in
  t <- get (lx_seq lexer) (4) ;;
  let bad := chk 1240 (ty_eqb (tk_type t) TOKEN_NULL) bad in
  t <- get (lx_seq lexer) (5) ;;
  let bad := chk 1240 (ty_eqb (tk_type t) TOKEN_NULL) bad in
  t <- get (lx_seq lexer) (6) ;;
  let bad := chk 1240 (ty_eqb (tk_type t) TOKEN_NULL) bad in
  t <- get (lx_seq lexer) (7) ;;
  let bad := chk 1240 (ty_eqb (tk_type t) TOKEN_NULL) bad in
  let line_num := line_num + 1 in
  '(res, lexer, tk, instr, _) <- lex_line (C "\n") lexer tk instr line_num ;;
  let bad := chk 1245 (res =? LEXER_SUCCESS) bad in
  t <- get (lx_seq lexer) (0) ;;
  let bad := chk 1247 (ty_eqb (tk_type t) TOKEN_NULL) bad in
  t <- get (lx_seq lexer) (1) ;;
  let bad := chk 1247 (ty_eqb (tk_type t) TOKEN_NULL) bad in
  t <- get (lx_seq lexer) (2) ;;
  let bad := chk 1247 (ty_eqb (tk_type t) TOKEN_NULL) bad in
  t <- get (lx_seq lexer) (3) ;;
  let bad := chk 1247 (ty_eqb (tk_type t) TOKEN_NULL) bad in
  t <- get (lx_seq lexer) (4) ;;
  let bad := chk 1247 (ty_eqb (tk_type t) TOKEN_NULL) bad in
  t <- get (lx_seq lexer) (5) ;;
  let bad := chk 1247 (ty_eqb (tk_type t) TOKEN_NULL) bad in
  t <- get (lx_seq lexer) (6) ;;
  let bad := chk 1247 (ty_eqb (tk_type t) TOKEN_NULL) bad in
  t <- get (lx_seq lexer) (7) ;;
  let bad := chk 1247 (ty_eqb (tk_type t) TOKEN_NULL) bad in
  let line_num := line_num + 1 in
  '(res, lexer, tk, instr, _) <- lex_line (C "\r\n") lexer tk instr line_num ;;
  let bad := chk 1252 (res =? LEXER_SUCCESS) bad in
  t <- get (lx_seq lexer) (0) ;;
  let bad := chk 1254 (ty_eqb (tk_type t) TOKEN_NULL) bad in
  t <- get (lx_seq lexer) (1) ;;
  let bad := chk 1254 (ty_eqb (tk_type t) TOKEN_NULL) bad in
  t <- get (lx_seq lexer) (2) ;;
  let bad := chk 1254 (ty_eqb (tk_type t) TOKEN_NULL) bad in
  t <- get (lx_seq lexer) (3) ;;
  let bad := chk 1254 (ty_eqb (tk_type t) TOKEN_NULL) bad in
  t <- get (lx_seq lexer) (4) ;;
  let bad := chk 1254 (ty_eqb (tk_type t) TOKEN_NULL) bad in
  t <- get (lx_seq lexer) (5) ;;
  let bad := chk 1254 (ty_eqb (tk_type t) TOKEN_NULL) bad in
  t <- get (lx_seq lexer) (6) ;;
  let bad := chk 1254 (ty_eqb (tk_type t) TOKEN_NULL) bad in
  t <- get (lx_seq lexer) (7) ;;
  let bad := chk 1254 (ty_eqb (tk_type t) TOKEN_NULL) bad in
  let line_num := line_num + 1 in
  '(res, lexer, tk, instr, _) <- lex_line (C "") lexer tk instr line_num ;;
  let bad := chk 1259 (res =? LEXER_SUCCESS) bad in
  t <- get (lx_seq lexer) (0) ;;
  let bad := chk 1261 (ty_eqb (tk_type t) TOKEN_NULL) bad in
  t <- get (lx_seq lexer) (1) ;;
  let bad := chk 1261 (ty_eqb (tk_type t) TOKEN_NULL) bad in
  t <- get (lx_seq lexer) (2) ;;
  let bad := chk 1261 (ty_eqb (tk_type t) TOKEN_NULL) bad in
  t <- get (lx_seq lexer) (3) ;;
  let bad := chk 1261 (ty_eqb (tk_type t) TOKEN_NULL) bad in
  t <- get (lx_seq lexer) (4) ;;
  let bad := chk 1261 (ty_eqb (tk_type t) TOKEN_NULL) bad in
  t <- get (lx_seq lexer) (5) ;;
  let bad := chk 1261 (ty_eqb (tk_type t) TOKEN_NULL) bad in
  t <- get (lx_seq lexer) (6) ;;
  let bad := chk 1261 (ty_eqb (tk_type t) TOKEN_NULL) bad in
  t <- get (lx_seq lexer) (7) ;;
  let bad := chk 1261 (ty_eqb (tk_type t) TOKEN_NULL) bad in
  let line_num := line_num + 1 in
  Ret (rev bad).
Example test_lex_line_passes : test_lex_line = Ret [].
Proof. vm_compute. reflexivity. Qed.

