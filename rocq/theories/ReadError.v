(** The error message of NewComposite when the io.Reader it reads from reports
    an error: which text gets into the message. *)
From Verif Require Import GoBase GoFloat Catalog Composite Header Data Projection Radolan Bufio ErrorText.
From Coq Require String. Import String.StringSyntax.

(** err.Error() of the errors of a reader: io.go [EOF], [ErrNoProgress];
    [other] gives the texts of all others. *)
Definition reader_error_text (other : Z -> list byte) (e : rderr) : list byte :=
  match e with
  | RdEOF => eof_text
  | RdNoProgress => bs "multiple Read calls return no data or error"
  | RdOther code => other code
  end.

(** io.go [ReadAtLeast], after the loop: io.EOF becomes io.ErrUnexpectedEOF if
    something has been read; any other error is returned as it is. *)
Definition full_error_text (other : Z -> list byte) (got : list byte) (e : rderr) : list byte :=
  match e, got with
  | RdEOF, _ :: _ => unexpected_eof_text
  | _, _ => reader_error_text other e
  end.

Section ReadError.
Variable S : Type.
Variable read : nat -> S -> list byte * option rderr * S.
Variable A : arith.
Variable E : goenv.
Variable fuel : nat.
(** err.Error() of fmt.Sscanf and time.Parse, on a header (with delimiter). *)
Variable parse_error : error -> list byte -> list byte.
(** err.Error() of the errors of the io.Reader. *)
Variable other : Z -> list byte.
Notation line_result := (option (list byte * option rderr * bufrd S)).

(** The call of the line reader that fails when a row loop (Bufio.v
    [row_loop_rd]) reads its at most n lines: what it got, and its error. *)
Fixpoint failing_read (rd : bufrd S -> line_result) (n : nat) (b : bufrd S) : option (list byte * rderr) :=
  match n with
  | O => None
  | Datatypes.S n' =>
      match rd b with
      | None => None
      | Some (got, Some e, _) => Some (got, e)
      | Some (_, None, b') => failing_read rd n' b'
      end
  end.

(** The text taken over into the message, as [detail] in ErrorText.v, but with
    the reader's error: runlength.go:28-31, littleendian.go:31-34,
    singlebyte.go:31-34 (err.Error() as the reason). *)
Definition detail_rd (e : error) (b : bufrd S) : list byte :=
  match read_bytes S read default_buf_size fuel Byte.x03 b with
  | Some (header, None, b') =>
      match e with
      | ELevelFormat => match split_header E (removelast header) with None => [] | Some m => section_get m "LV" end
      | EReadRunlength | EReadLittleEndian | EReadSingleByte =>
          match parse_header_text (n_ofZ A) E (zero_composite (n_zero A)) header with
          | Value c =>
              let rows := Z.to_nat (c_py c) in
              match e with
              | EReadRunlength =>
                  match failing_read (read_line_runlength_rd S read default_buf_size fuel) rows b' with
                  | Some (_, err) => reader_error_text other err | None => [] end
              | EReadLittleEndian =>
                  match failing_read (read_line_full_rd S read default_buf_size fuel (int_wrap (c_dx c * 2))) rows b' with
                  | Some (got, err) => full_error_text other got err | None => [] end
              | _ =>
                  match failing_read (read_line_full_rd S read default_buf_size fuel (c_dx c)) rows b' with
                  | Some (got, err) => full_error_text other got err | None => [] end
              end
          | _ => []
          end
      | _ => parse_error e header
      end
  | _ => []
  end.

(** radolan.go:132-154 [NewComposite]: the text of the error, if one is
    returned; [None]: the call has not returned within [fuel] iterations. *)
Definition composite_error_rd (src : S) : option (option (list byte)) :=
  match new_composite_rd S read A E fuel src with
  | None => None
  | Some (Failure e _) => Some (error_message e (detail_rd e (new_reader S src)))
  | Some _ => Some None
  end.
End ReadError.

(** The header of an input, with delimiter: the argument of [parse_error]. *)
Definition header_of (input : list byte) : list byte :=
  match read_until Byte.x03 input with Some (h, _) => h | None => [] end.
