(** Spec_Buffer.v -- specification side: a stream of the C library with a buffer.  Bytes are put into the buffer; the
    library may store any number of them in the file at any time, in order; a seek and a close store all of them
    first.  A process killed at any moment leaves the bytes of the buffer unstored. *)
From Verif Require Import Base Model_Io.

(** [d'] is [d] with the byte [b] at place [pos] (not negative); a gap is filled with zeros *)
Definition put_byte (d : list Z) (pos : Z) (b : Z) (d' : list Z) : Prop :=
  let n := Z.to_nat pos in
  List.length d' = Nat.max (List.length d) (S n) /\ nth n d' 0 = b /\
  forall i, i <> n -> nth i d' 0 = nth i d 0.

(** [through calls d pos buf]: when the calls have been made since the file was opened, the file can have the bytes [d],
    the operating system the position [pos] and the library the bytes [buf] in its buffer *)
Inductive through : list IoCall -> list Z -> Z -> list Z -> Prop :=
| th_open : through [] [] 0 []
| th_put cs d pos buf c : through cs d pos buf -> through (cs ++ [CallPut c]) d pos (buf ++ [c mod 256])
| th_store cs d pos b buf d' : through cs d pos (b :: buf) -> put_byte d pos b d' -> through cs d' (pos + 1) buf
| th_seek cs d pos p : through cs d pos [] -> through (cs ++ [CallSeek p]) d p []
| th_close cs d pos : through cs d pos [] -> through (cs ++ [CallClose]) d pos [].

(** [d] is the content of the file at some moment of the calls [cs] *)
Definition leaves (cs : list IoCall) (d : list Z) : Prop :=
  exists now later pos buf, cs = now ++ later /\ through now d pos buf.
