(** The messages, as a user sees them. *)
From Verif Require Import GoBase Composite Catalog.
From Coq Require String. Import String.StringSyntax.

(** How the message of an error of each kind begins. *)
Definition message_start (e : error) : list byte :=
  match e with
  | EHeaderShort => bs "radolan.parseHeader: header corrupted: too short"
  | EDataLength => bs "radolan.parseHeader: could not parse data length: "
  | ECaptureTime => bs "radolan.parseHeader: could not parse capture time: "
  | EForecastTime => bs "radolan.parseHeader: could not parse forecast time: "
  | EInterval => bs "radolan.parseHeader: could not parse interval: "
  | EDimGP => bs "radolan.parseHeader: could not parse dimensions (GP): "
  | EDimBG => bs "radolan.parseHeader: could not parse dimensions (BG): "
  | ENoDimension => bs "radolan.parseHeader: no dimension information available"
  | EPrecision => bs "radolan.parseHeader: could not parse precision: "
  | ELevelShort => bs "radolan.parseHeader: level field too short"
  | ELevelCount => bs "radolan.parseHeader: could not parse level count: "
  | ELevelFormat => bs "radolan.parseHeader: invalid level format: "
  | ELevelValue => bs "radolan.parseHeader: invalid level value: "
  | EFormat => bs "radolan.parseHeader: invalid format value: "
  | ENoHeader => bs "radolan.parseData: parsed header data required"
  | EUnknownEncoding => bs "radolan.parseUnknown: unknown encoding"
  | EReadRunlength => bs "radolan.readLineRunlength: "
  | EOffsetValue => bs "radolan.decodeRunlength: invalid offset value"
  | EDestination => bs "radolan.decodeRunlength: destination size exceeded"
  | EReadLittleEndian => bs "radolan.readLineLittleEndian: "
  | ESizeLittleEndian => bs "radolan.decodeLittleEndian: wrong destination or source size"
  | EReadSingleByte => bs "radolan.readLineSingleByte: "
  | ESizeSingleByte => bs "radolan.decodeSingleByte: wrong destination or source size"
  | ErrUnknownUnit => bs "radolan.NewComposite: data unit not defined in catalog. data values can be incorrect"
  | EArchive => bs "?"
  end.

Definition begins_with (t p : list byte) : Prop := exists d, t = p ++ d.
