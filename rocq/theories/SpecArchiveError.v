(** Where an archive fails. *)
From Verif Require Import GoBase Bufio SpecReader SpecReadError TarReader SpecTar.

(** Next reports an error with the given text; or within an entry, of which
    Read has delivered the bytes l, the reader reports x (io.EOF at the regular
    end of the entry). *)
Inductive spot := AtNext (text : list byte) | InEntry (l : list byte) (x : rderr).

Section Tar.
Variable S : Type.
Variable next : S -> next_result * S.
Variable next_error : S -> list byte.
Variable read : nat -> S -> list byte * option rderr * S.

(** From [s] on the tar reader has the given complete entries; then comes the
    spot.  Next goes to the next entry however much of the current one has been
    read. *)
Inductive entries_up_to : S -> list (list byte) -> spot -> Prop :=
| spot_next s : fst (next s) = NextErr -> entries_up_to s [] (AtNext (next_error s))
| spot_entry s s1 l x : next s = (NextEntry, s1) -> delivers_then read x 99 s1 l -> entries_up_to s [] (InEntry l x)
| one_entry s s1 e rest p : next s = (NextEntry, s1) -> delivers read 99 s1 e ->
    (forall s2, reached read s1 s2 -> entries_up_to s2 rest p) -> entries_up_to s (e :: rest) p.
End Tar.
Arguments entries_up_to {S}.
