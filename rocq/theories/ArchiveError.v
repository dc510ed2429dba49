(** The error message of NewComposites. *)
From Verif Require Import GoBase GoFloat Catalog Composite Header Data Projection Radolan Bufio ErrorText ReadError TarReader.

Section ArchiveError.
(** The tar reader, as in TarReader.v, and the text err.Error() of the error
    that Next returns in a state (other than io.EOF). *)
Variable S : Type.
Variable next : S -> next_result * S.
Variable next_error : S -> list byte.
Variable read : nat -> S -> list byte * option rderr * S.
Variable A : arith.
Variable E : goenv.
Variable fuel : nat.
(** As in ReadError.v. *)
Variable parse_error : error -> list byte -> list byte.
Variable other : Z -> list byte.

(** radolan.go:158-183 [NewComposites]: the text of the error, if one is
    returned: both errors are returned as they are (radolan.go:169-171,
    173-176).  [None]: not finished within [n] entries or [fuel] iterations of
    a reading loop. *)
Fixpoint composites_error_rd (n : nat) (s : S) : option (option (list byte)) :=
  match n with
  | O => None
  | Datatypes.S n' =>
      match next s with
      | (NextEOF, _) => Some None
      | (NextErr, _) => Some (Some (next_error s))
      | (NextEntry, s1) =>
          match new_composite_src S read A E fuel s1 with
          | None => None
          | Some (Panic, _) => Some None
          | Some (Failure _ _, _) => composite_error_rd S read A E fuel parse_error other s1
          | Some (Value _, Some s2) => composites_error_rd n' s2
          | Some (Value _, None) => None      (* does not happen *)
          end
      end
  end.
End ArchiveError.
