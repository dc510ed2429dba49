(** radolan.go:210-213 and the calls of newError: the texts of the errors
    NewComposite returns. *)
From Verif Require Import GoBase GoFloat Catalog Composite Header Data Projection Radolan.
From Coq Require String. Import String.StringSyntax.

(** radolan.go:211-213 [newError]: fmt.Errorf("radolan.%s: %s", function, reason). *)
Definition new_error (function reason : list byte) : list byte :=
  bs "radolan." ++ function ++ bs ": " ++ reason.

(** The calls of newError at the lines cited in Composite.v; [d] is the text
    appended to (or used as) the reason, if there is one: err.Error() of
    fmt.Sscanf, time.Parse or the reader, or the level field (header.go:142).
    [None]: not an error of this package (radolan.go:169-171). *)
Definition error_message (e : error) (d : list byte) : option (list byte) :=
  match e with
  | EHeaderShort => Some (new_error (bs "parseHeader") (bs "header corrupted: too short"))
  | EDataLength => Some (new_error (bs "parseHeader") (bs "could not parse data length: " ++ d))
  | ECaptureTime => Some (new_error (bs "parseHeader") (bs "could not parse capture time: " ++ d))
  | EForecastTime => Some (new_error (bs "parseHeader") (bs "could not parse forecast time: " ++ d))
  | EInterval => Some (new_error (bs "parseHeader") (bs "could not parse interval: " ++ d))
  | EDimGP => Some (new_error (bs "parseHeader") (bs "could not parse dimensions (GP): " ++ d))
  | EDimBG => Some (new_error (bs "parseHeader") (bs "could not parse dimensions (BG): " ++ d))
  | ENoDimension => Some (new_error (bs "parseHeader") (bs "no dimension information available"))
  | EPrecision => Some (new_error (bs "parseHeader") (bs "could not parse precision: " ++ d))
  | ELevelShort => Some (new_error (bs "parseHeader") (bs "level field too short"))
  | ELevelCount => Some (new_error (bs "parseHeader") (bs "could not parse level count: " ++ d))
  | ELevelFormat => Some (new_error (bs "parseHeader") (bs "invalid level format: " ++ d))
  | ELevelValue => Some (new_error (bs "parseHeader") (bs "invalid level value: " ++ d))
  | EFormat => Some (new_error (bs "parseHeader") (bs "invalid format value: " ++ d))
  | ENoHeader => Some (new_error (bs "parseData") (bs "parsed header data required"))
  | EUnknownEncoding => Some (new_error (bs "parseUnknown") (bs "unknown encoding"))
  | EReadRunlength => Some (new_error (bs "readLineRunlength") d)
  | EOffsetValue => Some (new_error (bs "decodeRunlength") (bs "invalid offset value"))
  | EDestination => Some (new_error (bs "decodeRunlength") (bs "destination size exceeded"))
  | EReadLittleEndian => Some (new_error (bs "readLineLittleEndian") d)
  | ESizeLittleEndian => Some (new_error (bs "decodeLittleEndian") (bs "wrong destination or source size"))
  | EReadSingleByte => Some (new_error (bs "readLineSingleByte") d)
  | ESizeSingleByte => Some (new_error (bs "decodeSingleByte") (bs "wrong destination or source size"))
  | ErrUnknownUnit => Some (new_error (bs "NewComposite") (bs "data unit not defined in catalog. data values can be incorrect"))
  | EArchive => None
  end.

(** io.go: EOF.Error(), ErrUnexpectedEOF.Error(). *)
Definition eof_text : list byte := bs "EOF".
(** io.go: ErrUnexpectedEOF.Error(). *)
Definition unexpected_eof_text : list byte := bs "unexpected EOF".

(** io.ReadFull at the end of the input: EOF if no byte was read, otherwise
    ErrUnexpectedEOF; ReadBytes: EOF in any case. *)
Definition full_error (left : list byte) : list byte :=
  match left with [] => eof_text | _ => unexpected_eof_text end.
(** runlength.go:28-31: ReadBytes returns EOF in any case. *)
Definition line_error (left : list byte) : list byte := eof_text.

Section Text.
Variable A : arith.
Variable E : goenv.
(** err.Error() of fmt.Sscanf and time.Parse. *)
Variable parse_error : error -> list byte -> list byte.

(** What is left of the input when a row loop (Data.v [row_loop]) cannot read a
    further line. *)
Fixpoint unread_rest (read : list byte -> option (list byte * list byte)) (n : nat) (s : list byte) : list byte :=
  match n with
  | O => s
  | S n' => match read s with None => s | Some (_, s') => unread_rest read n' s' end
  end.

(** The text taken over into the message: header.go:142 (the level field), the
    error of the reader (runlength.go:30, littleendian.go:33, singlebyte.go:33),
    otherwise that of the parsing function. *)
Definition detail (e : error) (input : list byte) : list byte :=
  match e with
  | ELevelFormat =>
      match read_until Byte.x03 input with
      | None => []
      | Some (header, _) =>
          match split_header E (removelast header) with None => [] | Some m => section_get m "LV" end
      end
  | EReadRunlength | EReadLittleEndian | EReadSingleByte =>
      match parse_header (n_ofZ A) E (zero_composite (n_zero A)) input with
      | Value (c, rest) =>
          let rows := Z.to_nat (c_py c) in
          match e with
          | EReadRunlength => line_error (unread_rest read_line_runlength rows rest)
          | EReadLittleEndian => full_error (unread_rest (read_full (int_wrap (c_dx c * 2))) rows rest)
          | _ => full_error (unread_rest (read_full (c_dx c)) rows rest)
          end
      | _ => []
      end
  | _ => parse_error e input
  end.

(** radolan.go:132-154 [NewComposite]: the text of the error, if one is returned. *)
Definition composite_error (input : list byte) : option (list byte) :=
  match new_composite A E input with
  | Failure e _ => error_message e (detail e input)
  | _ => None
  end.
End Text.
