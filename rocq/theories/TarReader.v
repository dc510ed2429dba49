(** NewComposites on the tar reader (archive/tar, compress/bzip2): the loop of
    radolan.go:158-183 with the reads that really happen. *)
From Verif Require Import GoBase GoFloat Catalog Composite Header Data Projection Radolan Bufio.

(** tar.Reader.Next: io.EOF, another error, or the header of the next entry
    (which NewComposites ignores). *)
Inductive next_result := NextEOF | NextErr | NextEntry.

Section Tar.
(** The state of the tar reader, with the bzip2 reader below; Next and Read. *)
Variable S : Type.
Variable next : S -> next_result * S.
Variable read : nat -> S -> list byte * option rderr * S.
Variable A : arith.
Variable E : goenv.
Variable sort : (composite (num A) -> composite (num A) -> bool) -> list (composite (num A)) -> list (composite (num A)).
(** Bound of the reading loops in NewComposite. *)
Variable fuel : nat.

(** radolan.go:163-178: the loop; NewComposite makes a new bufio.Reader on the
    tar reader for every entry and leaves it anywhere.  [None]: not finished
    within [n] entries or [fuel] iterations of a reading loop. *)
Fixpoint archive_loop (n : nat) (s : S) (cs : list (composite (num A))) : option (archive_result A) :=
  match n with
  | O => None
  | Datatypes.S n' =>
      match next s with
      | (NextEOF, _) => Some (ArchiveOk cs)
      | (NextErr, _) => Some (ArchiveErr EArchive)
      | (NextEntry, s1) =>
          match new_composite_src S read A E fuel s1 with
          | None => None
          | Some (Panic, _) => Some ArchivePanic
          | Some (Failure e _, _) => Some (ArchiveErr e)
          | Some (Value c, Some s2) => archive_loop n' s2 (cs ++ [c])
          | Some (Value c, None) => None      (* does not happen *)
          end
      end
  end.

(** radolan.go:158-183 [NewComposites]. *)
Definition new_composites_rd (n : nat) (s : S) : option (archive_result A) :=
  match archive_loop n s [] with
  | Some (ArchiveOk cs) => Some (ArchiveOk (sort (before A) cs))
  | r => r
  end.
End Tar.
