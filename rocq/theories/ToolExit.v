(** How radolan2png ends: its exit status and what it writes to stderr. *)
From Verif Require Import GoBase GoFloat Catalog Composite Header Data Projection Radolan Vis Png ErrorText.
From Coq Require String. Import String.StringSyntax.

(** The exit status of a run: radolan2png.go:101-105 [care], log.Fatal calls
    os.Exit(1), nothing happens after it; a panic ends the program with 2. *)
Fixpoint exit_status (t : list event) : Z :=
  match t with
  | [] => 0
  | EvFatal :: _ => 1
  | EvPanic :: _ => 2
  | _ :: t' => exit_status t'
  end.

(** log.go [Fatal], [Output], [formatHeader] with the standard flags: date and
    time ([stamp], e.g. 2009/01/23 01:23:23, any text here), a blank, the text,
    and a newline unless the text ends with one. *)
Definition log_fatal (stamp text : list byte) : list byte :=
  stamp ++ bs " " ++ text ++ match rev text with Byte.x0a :: _ => [] | _ => [Byte.x0a] end.

Section Stderr.
Variable M : mathlib.
Variable log : f64 -> f64.
Variable K : convs.
Variable E : goenv.
Notation A := (arith64 M).
Variable stamp : list byte.
(** err.Error() of os.Open, os.Create and png.Encode; of fmt.Sscanf and
    time.Parse (ErrorText.v). *)
Variable open_error create_error : list byte -> list byte.
Variable encode_error : list byte.
Variable parse_error : error -> list byte -> list byte.

(** radolan2png.go:22-105: what is written to stderr; [None]: a panic, whose
    text is not modelled. *)
Definition tool_stderr (w : world) (args : list (list byte)) : option (list byte) :=
  match args with
  | _ :: inp :: out :: _ =>
      match w_input w inp with
      | None => Some (log_fatal stamp (open_error inp))                 (* 35-36 *)
      | Some bytes =>
          match new_composite A E bytes with
          | Panic => None
          | Failure _ _ => option_map (log_fatal stamp) (composite_error A E parse_error bytes)   (* 40-41 *)
          | Value comp =>
              match select_colormap (c_unit comp) (c_interval comp) with
              | None => None
              | Some cm =>
                  match image_of A (color_fn K log cm) comp 0 with
                  | None => None
                  | Some _ =>
                      if w_create w then
                        if w_encode w then Some [] else Some (log_fatal stamp encode_error)   (* 97 *)
                      else Some (log_fatal stamp (create_error out))                          (* 92-93 *)
                  end
              end
          end
      end
  | _ => Some []
  end.
End Stderr.
