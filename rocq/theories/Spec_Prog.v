(** Spec_Prog.v -- specification side: words to speak about a program: its statements,
    the addresses they stand at, the labels they define, its code. *)
From Verif Require Import Base Spec_Isa Spec_Text Spec_Asm Spec_Diag.

(** the statements in front of the first .END *)
Fixpoint body (p : list stmt) : list stmt :=
  match p with
  | [] => []
  | SEnd :: _ => []
  | s :: p' => s :: body p'
  end.

(** the label a statement defines *)
Definition defines (s : stmt) : option text :=
  match s with
  | SLabel n | SConst n _ => Some n
  | SInstr lab _ _ => lab
  | _ => None
  end.

(** the number of labels, of instructions *)
Definition count {A} (f : A -> bool) (l : list A) : Z := Z.of_nat (List.length (filter f l)).
Definition defines_label (s : stmt) : bool := match defines s with Some _ => true | None => false end.
Definition is_instr (s : stmt) : bool := match s with SInstr _ _ _ => true | _ => false end.

(** the address of the statement of index [k], if all the ones in front of it are correct *)
Definition address (r : rules) (p : list stmt) (k : nat) : option Z :=
  option_map p1_addr (pass1_program r (firstn k (body p))).

(** the labels in front of the statement of index [k]; at the end *)
Definition labels_at (r : rules) (p : list stmt) (k : nat) : option env :=
  option_map p1_env (pass1_program r (firstn k (body p))).
Definition labels (r : rules) (p : list stmt) : option env := option_map p1_env (pass1_program r p).

(** the labels an instruction may refer to: its own one comes before *)
Definition with_own (lab : option text) (addr : Z) (e : env) : env :=
  match lab with Some n => (n, addr) :: e | None => e end.

(** the bytes of a piece of code *)
Definition code_size (code : list (Z * list Z)) : Z :=
  fold_right (fun w n => Z.of_nat (List.length (snd w)) + n) 0 code.

(** the file holds the bytes [bs] at address [a] *)
Definition holds_at (file : list Z) (a : Z) (bs : list Z) : Prop :=
  0 <= a /\ forall i b, nth_error bs i = Some b -> nth_error file (Z.to_nat a + i) = Some b.

(** a signed byte *)
Definition signed_byte (b : Z) : Z := if b <? 128 then b else b - 256.

(** every label an instruction refers to is defined in front of it, or on its line *)
Definition no_forward_reference (r : rules) (p : list stmt) : Prop :=
  forall k lab m o a e, nth_error (body p) k = Some (SInstr lab m o) ->
    address r p k = Some a -> labels_at r p k = Some e ->
    unresolved (with_own lab a e) o = false.

(** ** Where code lies *)
(** the instruction of index [k] occupies the address [x] *)
Definition spans (r : rules) (p : list stmt) (k : nat) (x : Z) : Prop :=
  exists lab m o a b, nth_error (body p) k = Some (SInstr lab m o) /\
    address r p k = Some a /\ address r p (S k) = Some b /\ a <= x < b.

(** the instruction of index [k] refers to a label that is not defined yet *)
Definition forward (r : rules) (p : list stmt) (k : nat) : Prop :=
  exists lab m o a e, nth_error (body p) k = Some (SInstr lab m o) /\
    address r p k = Some a /\ labels_at r p k = Some e /\ unresolved (with_own lab a e) o = true.

(** the address at which the last instruction in front of the one of index [k] ended;
    0 if there is none *)
Definition last_end (r : rules) (p : list stmt) (k : nat) (q : Z) : Prop :=
  (q = 0 /\ forall j s, (j < k)%nat -> nth_error (body p) j = Some s -> is_instr s = false) \/
  (exists j s, (j < k)%nat /\ nth_error (body p) j = Some s /\ is_instr s = true /\
     address r p (S j) = Some q /\
     forall i s', (j < i < k)%nat -> nth_error (body p) i = Some s' -> is_instr s' = false).

(** the zero bytes the program writes for a forward reference, at the place where the
    instruction in front of it ended *)
Definition zero_span (r : rules) (p : list stmt) (k : nat) (x : Z) : Prop :=
  forward r p k /\
  exists q a b, last_end r p k q /\ address r p k = Some a /\ address r p (S k) = Some b /\
    q <= x < q + (b - a).

(** the bytes [bs] of an operand [x] of value [v], in the mode [md], of an instruction at
    address [a]: a branch to a label holds its signed distance from the next instruction,
    a two-byte mode holds the value in little-endian order, the others hold the value *)
Definition operand_holds (a : Z) (md : mode) (x : expr) (v : Z) (bs : list Z) : Prop :=
  match md, x with
  | REL, Lab _ => exists b, bs = [b] /\ 0 <= b < 256 /\ a + 2 + signed_byte b = v
  | (ABS | ABSX | ABSY | IND), _ =>
      exists l h, bs = [l; h] /\ 0 <= l < 256 /\ 0 <= h < 256 /\ l + 256 * h = v
  | _, _ => bs = [v] /\ 0 <= v < 256
  end.

(** the number of the instruction of index [k] among the instructions *)
Definition instr_number (p : list stmt) (k : nat) : nat :=
  Z.to_nat (count is_instr (firstn k (body p))).

(** the bytes [new] are the bytes [old] with [bs] put at address [a], and zeros where
    there was nothing *)
Definition overwritten (old new : list Z) (a : Z) (bs : list Z) : Prop :=
  Z.of_nat (List.length new) = Z.max (Z.of_nat (List.length old)) (a + Z.of_nat (List.length bs)) /\
  forall x, 0 <= x -> nth (Z.to_nat x) new 0 =
    if (a <=? x) && (x <? a + Z.of_nat (List.length bs)) then nth (Z.to_nat (x - a)) bs 0 else nth (Z.to_nat x) old 0.

(** a source text of an ordinary size: below that of a file of 20 million bytes (which could have 21.4 million symbols or lines,
    where int counters overflow) *)
Definition small (src : text) : Prop := Z.of_nat (List.length src) < 20000000.
