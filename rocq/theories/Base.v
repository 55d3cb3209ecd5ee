(** Base.v -- vocabulary shared by the model: outcomes of C code, C strings,
    integers, arrays.  Nothing here is specific to gaia. *)
From Coq Require Export List ZArith Lia Bool Ascii String.
Export ListNotations.
#[global] Open Scope Z_scope.
#[global] Open Scope bool_scope.

(** ** Outcomes.  A C function either returns, has undefined behaviour, or does
    not return.  The two last ones are never confused with a normal value. *)
Inductive ub :=
| UbCtype      (* <ctype.h> function called on a negative value other than EOF *)
| UbTokenStr   (* write outside of the 64-byte text of a token *)
| UbIndex      (* array index out of bounds *)
| UbUnderrun   (* pointer moved before / beyond the string it points into *)
| UbOverflow   (* signed integer overflow *)
| UbNull       (* use of a null pointer *)
| UbDangling   (* use of memory that is not allocated (any more) *)
| UbFree       (* free of memory that is not allocated (any more) *)
| UbUninit.    (* use of a member before it is set *)

(** what a piece of C code does: return, undefined behaviour, or not return *)
Inductive M (A : Type) : Type :=
| Ret (a : A)
| Undef (u : ub)
| Diverge.
Arguments Ret {A} a.
Arguments Undef {A} u.
Arguments Diverge {A}.

(** one piece of C code after another *)
Definition bind {A B : Type} (m : M A) (f : A -> M B) : M B :=
  match m with
  | Ret a => f a
  | Undef u => Undef u
  | Diverge => Diverge
  end.

Notation "x <- e ;; k" := (bind e (fun x => k))
  (at level 61, e at next level, right associativity).
Notation "' p <- e ;; k" := (bind e (fun p => k))
  (at level 61, p pattern, e at next level, right associativity).

(** ** Bytes and C strings.  A [text] is the content of a C string: the bytes
    before the terminating NUL.  The terminating NUL is the end of the list. *)
Definition text := list ascii.
(** a string constant *)
Definition T (s : string) : text := list_ascii_of_string s.

(** a byte as a number from 0 to 255 *)
Definition code (c : ascii) : Z := Z.of_N (N_of_ascii c).
(** the byte with a number *)
Definition chr (z : Z) : ascii := ascii_of_N (Z.to_N z).

(** value of a (signed, as gcc does on Linux/x86) [char] *)
Definition schar (c : ascii) : Z := if code c <? 128 then code c else code c - 256.

(** '\0' *)
Definition ch_nul : ascii := Ascii.zero.
(** '\t' *)
Definition ch_tab : ascii := chr 9.
(** '\n' *)
Definition ch_nl  : ascii := chr 10.
(** '\r' *)
Definition ch_cr  : ascii := chr 13.
(** ' ' *)
Definition ch_sp  : ascii := chr 32.

(** [EOF] is -1; compared with a [char] it is the byte 255 *)
Definition EOF : Z := -1.

(** what [*p] reads when [p] points at the suffix [s] of a string *)
Definition hdc (s : text) : ascii := match s with [] => ch_nul | c :: _ => c end.

(** !strcmp(a, b) (C library) *)
Fixpoint text_eqb (a b : text) : bool :=
  match a, b with
  | [], [] => true
  | x :: a', y :: b' => Ascii.eqb x y && text_eqb a' b'
  | _, _ => false
  end.

(** ** <ctype.h> in the "C" locale (the program never calls setlocale).  The C
    standard leaves the result undefined for negative arguments except EOF. *)
Definition in_range (lo x hi : Z) : bool := (lo <=? x) && (x <=? hi).
(** 'A' to 'Z' *)
Definition is_upper (c : ascii) : bool := in_range 65 (code c) 90.
(** 'a' to 'z' *)
Definition is_lower (c : ascii) : bool := in_range 97 (code c) 122.
(** '0' to '9' *)
Definition is_digit (c : ascii) : bool := in_range 48 (code c) 57.
(** the arguments <ctype.h> allows *)
Definition ctype_ok (c : ascii) : bool := (0 <=? schar c) || (schar c =? EOF).

(** isalpha (C library; src/lexer.c:436, 583) *)
Definition isalpha (c : ascii) : M bool :=
  if ctype_ok c then Ret (is_upper c || is_lower c) else Undef UbCtype.
(** isalnum (C library; src/lexer.c:477) *)
Definition isalnum (c : ascii) : M bool :=
  if ctype_ok c then Ret (is_upper c || is_lower c || is_digit c) else Undef UbCtype.
(** toupper (C library; src/lexer.c:204) *)
Definition toupper (c : ascii) : ascii :=
  if is_lower c then chr (code c - 32) else c.

(** ** Integers *)
Definition INT_MAX : Z := 2147483647.
(** <limits.h> *)
Definition INT_MIN : Z := -2147483648.
(** result of a signed [int] operation *)
Definition int_of (z : Z) : M Z :=
  if in_range INT_MIN z INT_MAX then Ret z else Undef UbOverflow.
(** result of an [unsigned long] / [unsigned long long] operation (64 bit) *)
Definition u64 (z : Z) : Z := z mod 18446744073709551616.

(** a C [switch] over integer constants, each case returning a constant *)
Fixpoint switch (x : Z) (cases : list (Z * Z)) (default : Z) : Z :=
  match cases with
  | [] => default
  | (k, v) :: rest => if x =? k then v else switch x rest default
  end.

(** ** Arrays *)
(** l[i]; an index outside of the array is undefined *)
Definition get {A : Type} (l : list A) (i : Z) : M A :=
  if i <? 0 then Undef UbIndex else
  match nth_error l (Z.to_nat i) with
  | Some a => Ret a
  | None => Undef UbIndex
  end.

(** an array with one element changed *)
Fixpoint upd {A : Type} (l : list A) (i : nat) (x : A) : list A :=
  match l, i with
  | [], _ => []
  | _ :: l', O => x :: l'
  | y :: l', S i' => y :: upd l' i' x
  end.

(** l[i] = x; an index outside of the array is undefined *)
Definition put {A : Type} (l : list A) (i : Z) (x : A) : M (list A) :=
  if in_range 0 i (Z.of_nat (List.length l) - 1)
  then Ret (upd l (Z.to_nat i) x) else Undef UbIndex.

(** ** Loops.  [loop p step s] runs [step] at most [p] times: [inl] asks for
    another turn, [inr] stops.  [p] is binary so that the bound can be large. *)
Fixpoint loop {S R : Type} (p : positive) (step : S -> S + R) (s : S) : S + R :=
  match p with
  | xH => step s
  | xO q => match loop q step s with inl s' => loop q step s' | inr r => inr r end
  | xI q => match step s with
            | inl s0 => match loop q step s0 with
                        | inl s' => loop q step s' | inr r => inr r end
            | inr r => inr r
            end
  end.
