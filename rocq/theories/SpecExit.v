(** A line of the log as the standard logger writes it. *)
From Verif Require Import GoBase.

(** Time stamp, blank, text, newline (not doubled). *)
Definition logged (stamp text line : list byte) : Prop :=
  line = stamp ++ [Byte.x20] ++ text ++ [Byte.x0a] \/ (exists t, text = t ++ [Byte.x0a]) /\ line = stamp ++ [Byte.x20] ++ text.
