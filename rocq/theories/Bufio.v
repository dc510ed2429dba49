(** The readers underneath: io.Reader, bufio.Reader (ReadString, ReadBytes,
    Read) and io.ReadFull of the Go standard library, and NewComposite running
    on top of them.  The rest of the model works on the bytes themselves;
    PropReader.v shows that this makes no difference. *)
From Verif Require Import GoBase GoFloat Catalog Composite Header Data Projection Radolan.

(** An error returned by a reader: io.EOF, bufio's "no progress", or any other.
    The code under verification never looks at which one it is: it only copies
    the text into its own message (ReadError.v, ArchiveError.v). *)
Inductive rderr := RdEOF | RdNoProgress | RdOther (code : Z).

Section Bufio.
(** An io.Reader: any state, and any function Read(p) of len(p) and the state
    that yields the bytes put into p (their number is the result n), the error
    or nil, and the next state. *)
Variable S : Type.
Variable read : nat -> S -> list byte * option rderr * S.

(** bufio.go [type Reader struct]: the unread part buf[r:w] of the buffer, the
    pending error and the reader.  Where the unread part lies in the buffer has
    no influence: [fill] moves it to the front before reading, and [Read] only
    reads into an empty buffer. *)
Record bufrd := mk_bufrd { b_buf : list byte; b_err : option rderr; b_src : S }.

(** The size of the buffer, len(b.buf). *)
Variable size : nat.
(** bufio.go [maxConsecutiveEmptyReads]. *)
Definition max_empty_reads : nat := 100.

(** bufio.go [NewReader] (the argument is not itself a bufio.Reader). *)
Definition new_reader (src : S) : bufrd := mk_bufrd [] None src.

(** bufio.go [func (b *Reader) fill()]. *)
Fixpoint fill_loop (i : nat) (b : bufrd) : bufrd :=
  match i with
  | O => mk_bufrd (b_buf b) (Some RdNoProgress) (b_src b)
  | Datatypes.S i' =>
      let '(d, e, s') := read (size - length (b_buf b)) (b_src b) in
      match e with
      | Some _ => mk_bufrd (b_buf b ++ d) e s'
      | None =>
          let b' := mk_bufrd (b_buf b ++ d) (b_err b) s' in
          match d with [] => fill_loop i' b' | _ => b' end
      end
  end.
(** bufio.go [fill]: at most maxConsecutiveEmptyReads tries. *)
Definition fill (b : bufrd) : bufrd := fill_loop max_empty_reads b.

(** bytes.IndexByte. *)
Fixpoint index_byte (d : byte) (l : list byte) : option nat :=
  match l with
  | [] => None
  | x :: t => if byte_eqb x d then Some O
              else match index_byte d t with Some i => Some (Datatypes.S i) | None => None end
  end.

(** bufio.go: the errors of ReadSlice, ErrBufferFull or the pending one. *)
Inductive slice_err := BufferFull | Pending (e : rderr).

(** bufio.go [func (b *Reader) ReadSlice]: [s] is the start of the search.
    [None]: the loop has not ended within [fuel] iterations. *)
Fixpoint slice_loop (fuel : nat) (d : byte) (s : nat) (b : bufrd) : option (list byte * option slice_err * bufrd) :=
  match index_byte d (skipn s (b_buf b)) with
  | Some i =>
      Some (firstn (i + s + 1) (b_buf b), None, mk_bufrd (skipn (i + s + 1) (b_buf b)) (b_err b) (b_src b))
  | None =>
      match b_err b with
      | Some e => Some (b_buf b, Some (Pending e), mk_bufrd [] None (b_src b))
      | None =>
          if Nat.leb size (length (b_buf b))
          then Some (b_buf b, Some BufferFull, mk_bufrd [] None (b_src b))
          else match fuel with
               | O => None
               | Datatypes.S f => slice_loop f d (length (b_buf b)) (fill b)
               end
      end
  end.
(** bufio.go [func (b *Reader) ReadSlice]. *)
Definition read_slice (fuel : nat) (d : byte) (b : bufrd) := slice_loop fuel d 0 b.

(** bufio.go [collectFragments], [ReadBytes], [ReadString]: the joined
    fragments and the error. *)
Fixpoint read_bytes (fuel : nat) (d : byte) (b : bufrd) : option (list byte * option rderr * bufrd) :=
  match fuel with
  | O => None
  | Datatypes.S f =>
      match read_slice fuel d b with
      | None => None
      | Some (frag, None, b') => Some (frag, None, b')
      | Some (frag, Some (Pending e), b') => Some (frag, Some e, b')
      | Some (frag, Some BufferFull, b') =>
          match read_bytes f d b' with
          | None => None
          | Some (line, e, b'') => Some (frag ++ line, e, b'')
          end
      end
  end.

(** bufio.go [func (b *Reader) Read], for len(p) = n. *)
Definition buf_read (n : nat) (b : bufrd) : list byte * option rderr * bufrd :=
  match n with
  | O => match b_buf b with
         | [] => ([], b_err b, mk_bufrd [] None (b_src b))
         | _ => ([], None, b)
         end
  | _ =>
      match b_buf b with
      | [] =>
          match b_err b with
          | Some e => ([], Some e, mk_bufrd [] None (b_src b))
          | None =>
              if Nat.leb size n then
                let '(d, e, s') := read n (b_src b) in (d, e, mk_bufrd [] None s')
              else
                let '(d, e, s') := read size (b_src b) in
                match d with
                | [] => ([], e, mk_bufrd [] None s')
                | _ => (firstn n d, None, mk_bufrd (skipn n d) e s')
                end
          end
      | buf => (firstn n buf, None, mk_bufrd (skipn n buf) (b_err b) (b_src b))
      end
  end.

(** io.go [ReadFull], [ReadAtLeast]: loop with [got] read so far. *)
Fixpoint full_loop (fuel : nat) (n : nat) (got : list byte) (b : bufrd) : option (list byte * option rderr * bufrd) :=
  if Nat.leb n (length got) then Some (got, None, b)
  else match fuel with
       | O => None
       | Datatypes.S f =>
           let '(d, e, b') := buf_read (n - length got) b in
           match e with
           | None => full_loop f n (got ++ d) b'
           | Some e => if Nat.leb n (length (got ++ d)) then Some (got ++ d, None, b')
                       else Some (got ++ d, Some e, b')
           end
       end.

(** * NewComposite on a reader.  [None]: not finished within [fuel] iterations
    of some reading loop. *)
Section Composite.
Variable A : arith.
Variable E : goenv.
Variable fuel : nat.
Notation T := (num A).
Notation line_result := (option (list byte * option rderr * bufrd)).

(** header.go:43-47 [parseHeader]: ReadString('\x03'). *)
Definition parse_header_rd (c : composite T) (b : bufrd) : option (outcome T (composite T * bufrd)) :=
  match read_bytes fuel Byte.x03 b with
  | None => None
  | Some (_, Some _, _) => Some (Failure EHeaderShort c)
  | Some (header, None, b') =>
      Some (bind (parse_header_text (n_ofZ A) E c header) (fun c => Value (c, b')))
  end.

(** runlength.go:27-37 [readLineRunlength]. *)
Definition read_line_runlength_rd (b : bufrd) : line_result :=
  match read_bytes fuel Byte.x0a b with
  | None => None
  | Some (line, e, b') => Some (removelast line, e, b')
  end.
(** littleendian.go:29-36, singlebyte.go:29-36: make([]byte, n), io.ReadFull. *)
Definition read_line_full_rd (n : Z) (b : bufrd) : line_result := full_loop fuel (Z.to_nat n) [] b.

(** The row loops, as [row_loop] in Data.v. *)
Fixpoint row_loop_rd (read : bufrd -> line_result) (eread : error)
    (decode : list f32 -> list byte -> row_result) (row : Z -> Z)
    (n : nat) (i : Z) (c : composite T) (b : bufrd) : option (outcome T (composite T * bufrd)) :=
  match n with
  | O => Some (Value (c, b))
  | Datatypes.S n' =>
      match read b with
      | None => None
      | Some (_, Some _, _) => Some (Failure eread c)
      | Some (line, None, b') =>
          match index (c_plain c) (row i) with
          | None => Some Panic
          | Some dst =>
              match decode dst line with
              | RowPanic => Some Panic
              | RowErr e dst' =>
                  match assign (c_plain c) (row i) dst' with
                  | None => Some Panic
                  | Some p => Some (Failure e (set_plain c p))
                  end
              | RowOk dst' =>
                  match assign (c_plain c) (row i) dst' with
                  | None => Some Panic
                  | Some p => row_loop_rd read eread decode row n' (i + 1) (set_plain c p) b'
                  end
              end
          end
      end
  end.

(** runlength.go:9-23 [parseRunlength]. *)
Definition parse_runlength_rd (c : composite T) (b : bufrd) :=
  row_loop_rd read_line_runlength_rd EReadRunlength (decode_runlength (level_of c)) (fun i => i)
    (length (c_plain c)) 0 c b.
(** littleendian.go:10-36 [parseLittleEndian]. *)
Definition parse_little_endian_rd (c : composite T) (b : bufrd) :=
  let n := int_wrap (c_dx c * 2) in
  match c_plain c, make 1 Byte.x00 n with
  | _ :: _, None => Some Panic
  | _, _ => row_loop_rd (read_line_full_rd n) EReadLittleEndian
      (decode_little_endian (c_precision c) (c_unit c))
      (fun i => len (c_plain c) - 1 - i) (length (c_plain c)) 0 c b
  end.
(** singlebyte.go:10-36 [parseSingleByte]. *)
Definition parse_single_byte_rd (c : composite T) (b : bufrd) :=
  let n := c_dx c in
  match c_plain c, make 1 Byte.x00 n with
  | _ :: _, None => Some Panic
  | _, _ => row_loop_rd (read_line_full_rd n) EReadSingleByte
      (decode_single_byte (c_precision c) (c_unit c))
      (fun i => len (c_plain c) - 1 - i) (length (c_plain c)) 0 c b
  end.

(** data.go:17-26, 60, 80-82. *)
Definition parse_encoding_rd (e : encoding) (c : composite T) (b : bufrd) :=
  match e with
  | runlength => parse_runlength_rd c b
  | littleEndian => parse_little_endian_rd c b
  | singleByte => parse_single_byte_rd c b
  | unknown => Some (Failure EUnknownEncoding c)
  end.

(** data.go:49-61 [parseData]. *)
Definition parse_data_rd (c : composite T) (b : bufrd) : option (outcome T (composite T * bufrd)) :=
  if (c_px c =? 0) || (c_py c =? 0) then Some (Failure ENoHeader c) else
  match make 24 ([] : list f32) (c_py c) with
  | None => Some Panic
  | Some rows =>
      match rows, make 4 (S754_zero false : f32) (c_px c) with
      | _ :: _, None => Some Panic
      | _, Some zs => let c := set_plain c (map (fun _ => zs) rows) in
                      parse_encoding_rd (identify_encoding c) c b
      | [], None => let c := set_plain c [] in parse_encoding_rd (identify_encoding c) c b
      end
  end.

(** radolan.go:132-154 [NewComposite] from line 133 on, [b] being the buffered
    reader: the result, and the buffered reader after the data section if that
    was read. *)
Definition new_composite_on (b : bufrd) : option (outcome T (composite T) * option bufrd) :=
  match parse_header_rd (zero_composite (n_zero A)) b with
  | None => None
  | Some Panic => Some (Panic, None)
  | Some (Failure e c) => Some (Failure e c, None)
  | Some (Value (c, b)) =>
      match parse_data_rd c b with
      | None => None
      | Some Panic => Some (Panic, None)
      | Some (Failure e c) => Some (Failure e c, None)
      | Some (Value (c, b)) =>
          match arrange_data c with
          | None => Some (Panic, None)
          | Some c =>
              let c := calibrate_projection A c in
              Some (if unit_eqb (c_unit c) Unit_unknown then Failure ErrUnknownUnit c else Value c, Some b)
          end
      end
  end.
End Composite.
End Bufio.
Arguments b_buf {S}. Arguments b_err {S}. Arguments b_src {S}. Arguments mk_bufrd {S}.

(** bufio.go [defaultBufSize]. *)
Definition default_buf_size : nat := 4096.

(** radolan.go:132-133 [NewComposite], the argument not being a *bufio.Reader:
    bufio.NewReader makes a new one.  With the result comes the argument after
    the call, if the data section was read. *)
Definition new_composite_src (S : Type) (read : nat -> S -> list byte * option rderr * S) (A : arith) (E : goenv)
    (fuel : nat) (src : S) : option (outcome (num A) (composite (num A)) * option S) :=
  option_map (fun r => (fst r, option_map b_src (snd r)))
    (new_composite_on S read default_buf_size A E fuel (new_reader S src)).
(** radolan.go:132-154 [NewComposite]: the result alone. *)
Definition new_composite_rd (S : Type) (read : nat -> S -> list byte * option rderr * S) (A : arith) (E : goenv)
    (fuel : nat) (src : S) : option (outcome (num A) (composite (num A))) :=
  option_map fst (new_composite_src S read A E fuel src).

(** radolan.go:132-133 [NewComposite], the argument being a *bufio.Reader with
    a buffer of [size] bytes: bufio.NewReader returns the argument itself if its
    buffer is not smaller than the default (bufio.go [NewReaderSize]); otherwise
    it makes a new one that reads from it.  With the result comes the argument
    after the call, if the data section was read. *)
Definition new_composite_buf (S : Type) (read : nat -> S -> list byte * option rderr * S) (size : nat) (A : arith) (E : goenv)
    (fuel : nat) (b : bufrd S) : option (outcome (num A) (composite (num A)) * option (bufrd S)) :=
  if Nat.leb default_buf_size size then new_composite_on S read size A E fuel b
  else new_composite_src (bufrd S) (buf_read S read size) A E fuel b.
