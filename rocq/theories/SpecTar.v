(** What it means that a tar reader holds given entries. *)
From Verif Require Import GoBase Bufio SpecReader TarReader.

Section Tar.
Variable S : Type.
Variable next : S -> next_result * S.
Variable read : nat -> S -> list byte * option rderr * S.

(** [s'] can be reached from [s] by some Reads. *)
Inductive reached : S -> S -> Prop :=
| reached_here s : reached s s
| reached_more s s' n : reached s s' -> reached s (snd (read n s')).

(** From [s] on the reader has the given entries, then the regular end (if
    [clean]) or an error: Next goes to the next entry, however much of the
    current one has been read, and Read delivers the bytes of the current entry
    up to the first error (io.EOF at its end). *)
Inductive holds_entries : S -> list (list byte) -> bool -> Prop :=
| holds_end s : fst (next s) = NextEOF -> holds_entries s [] true
| holds_error s : fst (next s) = NextErr -> holds_entries s [] false
| holds_entry s s1 e rest clean : next s = (NextEntry, s1) -> delivers read 99 s1 e ->
    (forall s2, reached s1 s2 -> holds_entries s2 rest clean) -> holds_entries s (e :: rest) clean.
End Tar.
Arguments reached {S}. Arguments holds_entries {S}.
