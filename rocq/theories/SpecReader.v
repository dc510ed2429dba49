(** What it means that an io.Reader delivers a given sequence of bytes. *)
From Verif Require Import GoBase GoFloat Composite Header Data Projection Radolan Bufio Spec.

Section Reader.
Variable S : Type.
Variable read : nat -> S -> list byte * option rderr * S.

(** Every further Read returns no bytes and an error (e.g. io.EOF). *)
CoInductive ended : S -> Prop :=
| is_ended s : (forall n, (0 < n)%nat -> exists e s', read n s = ([], Some e, s') /\ ended s') -> ended s.

(** Every further Read returns no bytes and no error. *)
CoInductive stalled : S -> Prop :=
| is_stalled s : (forall n, (0 < n)%nat -> exists s', read n s = ([], None, s') /\ stalled s') -> stalled s.

(** From state s the reader delivers exactly the bytes l, cut into reads of
    whatever sizes (at most the size asked for), with at most 99 empty reads in
    succession ([g] more now), and the end is reported by an error, with the
    last bytes or after them. *)
Inductive delivers : nat -> S -> list byte -> Prop :=
| is_delivering g s l :
    (forall n, (0 < n)%nat -> exists d e s' l', read n s = (d, e, s') /\ (length d <= n)%nat /\ l = d ++ l' /\
       ((e <> None /\ l' = [] /\ ended s') \/
        (e = None /\ d <> [] /\ delivers 99 s' l') \/
        (e = None /\ d = [] /\ exists g', g = Datatypes.S g' /\ delivers g' s' l'))) ->
    delivers g s l.

(** The same, but after the last byte the reader stalls. *)
Inductive delivers_then_stalls : nat -> S -> list byte -> Prop :=
| is_at_stall g s : stalled s -> delivers_then_stalls g s []
| is_before_stall g s l :
    (forall n, (0 < n)%nat -> exists d s' l', read n s = (d, None, s') /\ (length d <= n)%nat /\ l = d ++ l' /\
       ((d <> [] /\ delivers_then_stalls 99 s' l') \/
        (d = [] /\ exists g', g = Datatypes.S g' /\ delivers_then_stalls g' s' l'))) ->
    delivers_then_stalls g s l.

(** The buffered reader b, with a buffer of [size] bytes, has exactly the bytes
    l left to be read: those in its buffer and those its source delivers. *)
Inductive unread (size : nat) (b : bufrd S) : list byte -> Prop :=
| unread_running g l : (g <= 99)%nat -> (length (b_buf b) <= size)%nat -> b_err b = None -> delivers g (b_src b) l ->
    unread size b (b_buf b ++ l)
| unread_ending e : (length (b_buf b) <= size)%nat -> b_err b = Some e -> ended (b_src b) -> unread size b (b_buf b).

(** A program that calls NewComposite k times on the same *bufio.Reader, going
    on as long as the data was read: the results, and the reader at the end. *)
Fixpoint successive (A : arith) (E : goenv) (size fuel k : nat) (b : bufrd S)
  : option (list (outcome (num A) (composite (num A))) * bufrd S) :=
  match k with
  | O => Some ([], b)
  | Datatypes.S k' =>
      match new_composite_buf S read size A E fuel b with
      | Some (r, Some b') =>
          match successive A E size fuel k' b' with
          | Some (rs, b'') => Some (r :: rs, b'')
          | None => None
          end
      | _ => None
      end
  end.
End Reader.

(** A file and nothing more: it is parsed, and no shorter part of it is. *)
Definition whole_file (A : arith) (E : goenv) (f : list byte) : Prop :=
  (exists c, parsed A E f c) /\ forall p s, f = p ++ s -> s <> [] -> forall c, ~ parsed A E p c.

Arguments unread {S}. Arguments successive {S}.
Arguments ended {S}. Arguments stalled {S}. Arguments delivers {S}. Arguments delivers_then_stalls {S}.
