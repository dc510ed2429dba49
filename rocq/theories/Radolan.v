(** radolan.go: NewComposite, NewComposites, NewDummy, At, AtZ. *)
From Verif Require Import GoBase GoFloat Catalog Composite Header Data Projection.

Section Radolan.
Variable A : arith.
Variable E : goenv.
Notation T := (num A).

(** radolan.go:132-154 [NewComposite]: [Value c] is (c, nil), [Failure e c]
    is (c, e). *)
Definition new_composite (input : list byte) : outcome T (composite T) :=
  match parse_header (n_ofZ A) E (zero_composite (n_zero A)) input with
  | Panic => Panic
  | Failure e c => Failure e c
  | Value (c, rest) =>
      match parse_data c rest with
      | Panic => Panic
      | Failure e c => Failure e c
      | Value (c, _) =>
          match arrange_data c with
          | None => Panic
          | Some c =>
              let c := calibrate_projection A c in
              if unit_eqb (c_unit c) Unit_unknown then Failure ErrUnknownUnit c else Value c
          end
      end
  end.

(** radolan.go:187-191 [NewDummy]. *)
Definition new_dummy (product : list byte) (format dx dy : Z) : composite T :=
  calibrate_projection A
    (set_dy (set_dx (set_format (set_product (zero_composite (n_zero A)) product) format) dx) dy).

(** radolan.go:203-208 [AtZ]; [None] is an index panic. *)
Definition at_z (c : composite T) (x y z : Z) : option f32 :=
  if (x <? 0) || (y <? 0) || (z <? 0) || (c_dx c <=? x) || (c_dy c <=? y) || (c_dz c <=? z)
  then Some NaN32
  else match index (c_dataz c) z with
       | None => None
       | Some l => match index l y with
                   | None => None
                   | Some r => index r x
                   end
       end.

(** radolan.go:196-198 [At]. *)
Definition at_ (c : composite T) (x y : Z) : option f32 := at_z c x y 0.

(** radolan.go:158-183 [NewComposites].  The bzip2 and tar readers are
    external: an archive is the sequence of the entries' contents, followed by
    the regular end (io.EOF) or by a read error.  A damaged last entry
    appears as the error (its content is not delivered completely).
    [sort] is sort.Slice with the given "less". *)
Record archive := mk_archive { ar_entries : list (list byte); ar_clean_end : bool }.

(** radolan.go:158 [NewComposites]: its results. *)
Inductive archive_result :=
| ArchiveOk (cs : list (composite T))
| ArchiveErr (e : error)
| ArchivePanic.

(** radolan.go:163-178: the loop. *)
Fixpoint read_entries (entries : list (list byte)) (clean : bool) (cs : list (composite T)) : archive_result :=
  match entries with
  | [] => if clean then ArchiveOk cs else ArchiveErr EArchive
  | e :: rest =>
      match new_composite e with
      | Panic => ArchivePanic
      | Failure err _ => ArchiveErr err
      | Value c => read_entries rest clean (cs ++ [c])
      end
  end.

Variable sort : (composite T -> composite T -> bool) -> list (composite T) -> list (composite T).

(** radolan.go:181: cs[i].ForecastTime.Before(cs[j].ForecastTime). *)
Definition before (a b : composite T) : bool := c_forecast a <? c_forecast b.

(** radolan.go:158-183 [NewComposites]. *)
Definition new_composites (a : archive) : archive_result :=
  match read_entries (ar_entries a) (ar_clean_end a) [] with
  | ArchiveOk cs => ArchiveOk (sort before cs)
  | r => r
  end.
End Radolan.

Arguments ArchiveOk {A}. Arguments ArchiveErr {A}. Arguments ArchivePanic {A}.
