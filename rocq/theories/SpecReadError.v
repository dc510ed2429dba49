(** A reader that delivers some bytes and then reports one given error. *)
From Verif Require Import GoBase GoFloat Bufio.

Section Reader.
Variable S : Type.
Variable read : nat -> S -> list byte * option rderr * S.
(** The error: io.EOF for an ordinary end of file, otherwise what the medium
    reports (a timeout, a damaged archive, ...). *)
Variable x : rderr.

(** Every further Read returns no bytes and the error x. *)
CoInductive broken : S -> Prop :=
| is_broken s : (forall n, (0 < n)%nat -> exists s', read n s = ([], Some x, s') /\ broken s') -> broken s.

(** As [delivers] in SpecReader.v, the error being x: from state s the reader
    delivers exactly the bytes l, cut into reads of whatever sizes, with at
    most 99 empty reads in succession ([g] more now), and reports x with the
    last bytes or after them. *)
Inductive delivers_then : nat -> S -> list byte -> Prop :=
| is_delivering_then g s l :
    (forall n, (0 < n)%nat -> exists d e s' l', read n s = (d, e, s') /\ (length d <= n)%nat /\ l = d ++ l' /\
       ((e = Some x /\ l' = [] /\ broken s') \/
        (e = None /\ d <> [] /\ delivers_then 99 s' l') \/
        (e = None /\ d = [] /\ exists g', g = Datatypes.S g' /\ delivers_then g' s' l'))) ->
    delivers_then g s l.
End Reader.
Arguments broken {S}. Arguments delivers_then {S}.
