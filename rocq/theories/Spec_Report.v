(** Spec_Report.v -- specification side: what an error report looks like. *)
From Coq Require Import DecimalString HexadecimalString.
From Verif Require Import Base.

(** decimal notation of an integer *)
Definition decimal (n : Z) : text := T (DecimalString.NilZero.string_of_int (Z.to_int n)).

(** the column (from 0) where the next character goes on a terminal with tab stops
    every 8 columns *)
Definition next_column (col : nat) (c : ascii) : nat :=
  if Ascii.eqb c ch_tab then ((col / 8 + 1) * 8)%nat else S col.
Definition column (before : text) : nat := fold_left next_column before 0%nat.

(** characters not shown at the end of a line *)
Definition trailing (c : ascii) : Prop := c = ch_sp \/ c = ch_tab \/ c = ch_nl \/ c = chr 255.

(** [line] without its trailing blanks *)
Definition shown_as (line shown : text) : Prop :=
  exists trail, line = shown ++ trail /\ Forall trailing trail /\
                exists front c, shown = front ++ [c] /\ ~ trailing c.

(** [out] is the report of the error [message] in line number [n] of [file], with the
    text of the line and, when [pos] is given, an arrow whose tip is in the column of
    the character at that offset *)
Definition Report (file : text) (n : Z) (message : string) (line : text) (pos : option nat)
    (out : text) : Prop :=
  exists shown, shown_as line shown /\
    out = file ++ T ":" ++ decimal n ++ T ": ERROR: " ++ T message ++ [ch_nl] ++
          shown ++ [ch_nl] ++
          match pos with
          | None => [ch_nl]
          | Some p => repeat ch_sp (column (firstn p line)) ++ T "^~~~~~" ++ [ch_nl; ch_nl]
          end.

(** hexadecimal notation, in lower case, with at least four digits *)
Definition hexadecimal4 (n : Z) : text :=
  let h := T (HexadecimalString.NilZero.string_of_uint (N.to_hex_uint (Z.to_N n))) in
  repeat "0"%char (4 - List.length h) ++ h.

(** the report of a successful assembly of [bytes] bytes with [symbols] labels *)
Definition SuccessReport (bytes symbols : Z) (out : text) : Prop :=
  out = T "Assembly successful." ++ [ch_nl] ++
        decimal bytes ++ T " (0x" ++ hexadecimal4 bytes ++ T ") bytes assembled." ++ [ch_nl] ++
        decimal symbols ++ T " symbols." ++ [ch_nl].
